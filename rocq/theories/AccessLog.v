(** Model of lib/access_log.cpp, lib/system_clock.cpp, SocketFd::client_ip and the logger
    set up by main.cpp:62-75: the octets appended to the log file.  What getpeername and
    localtime_r say are inputs. *)
From Verif Require Import Base Http.

(** What getpeername says of a socket: it fails; an IPv4 address; an IPv6 address, given
    by the text inet_ntop makes of it; another family. *)
Inductive peer := PeerFails | PeerV4 (a b c d : Z) | PeerV6 (text : bytes) | PeerOther.
(** SocketFd::client_ip, socket_fd.cpp:32-53, with inet_ntop for IPv4, and the
    value_or("") of establish_conn, http2_server.cpp:47. *)
Definition client_ip (p : peer) : bytes :=
  match p with
  | PeerFails => []
  | PeerV4 a b c d => to_string a ++ [46] ++ to_string b ++ [46] ++ to_string c ++ [46] ++ to_string d
  | PeerV6 t => t
  | PeerOther => []
  end.

(** struct tm, as far as it is used: localtime_r's result. *)
Record tm := Tm { tm_mday : Z; tm_mon : Z; tm_year : Z; tm_hour : Z; tm_min : Z; tm_sec : Z; tm_gmtoff : Z }.
(** The conversions of strftime used: two digits (for 0 to 99), %b in the C locale, %z. *)
Definition two (n : Z) : bytes := [48 + n / 10; 48 + n mod 10].
(** %b, system_clock.cpp:5-15. *)
Definition month (m : Z) : bytes :=
  nth (Z.to_nat m) [str "Jan"; str "Feb"; str "Mar"; str "Apr"; str "May"; str "Jun";
                    str "Jul"; str "Aug"; str "Sep"; str "Oct"; str "Nov"; str "Dec"] (str "?").
(** %z, system_clock.cpp:5-15. *)
Definition zone (off : Z) : bytes :=
  (if off <? 0 then [45] else [43]) ++ two (Z.abs off / 60 / 60) ++ two (Z.abs off / 60 mod 60).
(** SystemClock::clf_timestamp, system_clock.cpp:5-15.  strftime gives 0, and the buffer is
    emptied, if the text and its NUL do not fit in 32 octets. *)
Definition clf_timestamp (t : tm) : bytes :=
  let s := [91] ++ two (tm_mday t) ++ [47] ++ month (tm_mon t) ++ [47] ++ to_string (1900 + tm_year t) ++ [58] ++
           two (tm_hour t) ++ [58] ++ two (tm_min t) ++ [58] ++ two (tm_sec t) ++ [32] ++ zone (tm_gmtoff t) ++ [93] in
  if lenZ s + 1 <=? 32 then s else [].

(** The loop over the headers, access_log.cpp:18-36, for one of the four names. *)
Definition recorded (name : bytes) (hs : list header) : bytes :=
  fold_left (fun v h => if bytes_eqb (h_name h) name then h_value h else v) hs (str "-").
(** The quotation mark of the format, access_log.cpp:38. *)
Definition QUOTE := 34.
(** std::format and the logger's pattern "%v", which adds a newline, access_log.cpp:37-41. *)
Definition log_text (client_ip timestamp : bytes) (hs : list header) (status size : Z) : bytes :=
  (match client_ip with [] => str "-" | ip => ip end) ++ str " - - " ++ timestamp ++ [32; QUOTE] ++
  recorded (str ":method") hs ++ [32] ++ recorded (str ":path") hs ++ str " HTTP/2" ++ [QUOTE; 32] ++
  to_string status ++ [32] ++ to_string size ++ [32; QUOTE] ++
  recorded (str "referer") hs ++ [QUOTE; 32; QUOTE] ++ recorded (str "user-agent") hs ++ [QUOTE; 10].
(** AccessLog::log_request, access_log.cpp:11-42; without a logger nothing happens. *)
Definition log_request (logger : bool) (hs : list header) (status size : Z) (client_ip timestamp : bytes) : bytes :=
  if logger then log_text client_ip timestamp hs status size else [].
(** What the log calls of one connection add to the log file, made at the given times. *)
Fixpoint log_file (p : peer) (times : list tm) (entries : list (list header * Z * Z)) : bytes :=
  match times, entries with
  | t :: ts, (hs, status, size) :: es =>
    log_request true hs status size (client_ip p) (clf_timestamp t) ++ log_file p ts es
  | _, _ => []
  end.

(** The log calls of all connections, with the number of the socket: client_ip_ of
    http2_conn.h:51 belongs to the connection. *)
Definition log_calls (h : list (nat * event)) : list (nat * (list header * Z * Z)) :=
  flat_map (fun x => match snd x with EvLog hs status size => [(fst x, (hs, status, size))] | _ => [] end) h.
(** What all connections add to the log file, access_log.cpp:11-42. *)
Fixpoint server_log (logger : bool) (peers : nat -> peer) (times : list tm) (calls : list (nat * (list header * Z * Z))) : bytes :=
  match times, calls with
  | t :: ts, (n, (hs, status, size)) :: cs =>
    log_request logger hs status size (client_ip (peers n)) (clf_timestamp t) ++ server_log logger peers ts cs
  | _, _ => []
  end.

(** spdlog's levels. *)
Inductive level := LTrace | LDebug | LInfo | LWarn | LErr | LCritical | LOff.
(** The order of spdlog's levels (main.cpp:107). *)
Definition severity (l : level) : Z :=
  match l with LTrace => 0 | LDebug => 1 | LInfo => 2 | LWarn => 3 | LErr => 4 | LCritical => 5 | LOff => 6 end.
(** The names of levels, args.cpp:47-58. *)
Definition level_map : list (bytes * level) :=
  [(str "trace", LTrace); (str "debug", LDebug); (str "info", LInfo); (str "warn", LWarn); (str "error", LErr);
   (str "critical", LCritical); (str "off", LOff)].
(** Args::log_level_enum, args.cpp:47-58. *)
Definition log_level_enum (log_level : bytes) : out level :=
  match find (fun x => bytes_eqb (fst x) log_level) level_map with Some x => Ret (snd x) | None => Throw end.
(** Whether the entries reach the file: setup_access_logs, main.cpp:62-75, has made the
    logger ([opened]: the file could be opened), and its level, which spdlog takes from
    the set_level of main.cpp:107, lets info messages through. *)
Definition logger_on (log_path : bytes) (opened : bool) (l : level) : bool :=
  match log_path with [] => false | _ => opened && (severity l <=? severity LInfo) end.
