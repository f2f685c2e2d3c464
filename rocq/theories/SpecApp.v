(** What the surroundings of the server should do: access log, statistics, durations. *)
From Verif Require Import Base Http SpecConn AccessLog.

(** ** Access log *)
Definition count (c : Z) (o : bytes) : nat := length (filter (Z.eqb c) o).
Definition only_field (hs : list header) (n v : bytes) : Prop :=
  exists a b, hs = a ++ Hdr n v :: b /\ Forall (fun h => h_name h <> n) (a ++ b).
(** What stands in the log for a field: the last value, or a dash. *)
Definition noted_field (hs : list header) (n v : bytes) : Prop :=
  (exists a b, hs = a ++ Hdr n v :: b /\ no_field b n) \/ (no_field hs n /\ v = str "-").
(** A numeral of [k] digits. *)
Definition digits (k : nat) (s : bytes) (n : Z) : Prop :=
  length s = k /\ Forall (fun d => 48 <= d <= 57) s /\ fold_left (fun v d => 10 * v + (d - 48)) s 0 = n.
(** The address of a client: four numbers, or the text of an IPv6 address, or a dash. *)
Inductive address : peer -> bytes -> Prop :=
| address_v4 : forall a b c d A B C D, decimal A a -> decimal B b -> decimal C c -> decimal D d ->
    address (PeerV4 a b c d) (A ++ [46] ++ B ++ [46] ++ C ++ [46] ++ D)
| address_v6 : forall t, address (PeerV6 t) t
| address_fails : address PeerFails (str "-")
| address_other : address PeerOther (str "-").
(** Contracts of getpeername and inet_ntop. *)
Definition peer_ok (p : peer) : Prop :=
  match p with
  | PeerV4 a b c d => Forall is_byte [a; b; c; d]
  | PeerV6 t => t <> [] /\ Forall (fun c => 46 <= c <= 58 \/ 97 <= c <= 102) t
  | _ => True
  end.
(** Contract of localtime_r, for years of four digits. *)
Definition tm_ok (t : tm) : Prop :=
  1 <= tm_mday t <= 31 /\ 0 <= tm_mon t < 12 /\ 1000 <= 1900 + tm_year t < 10000 /\
  0 <= tm_hour t < 24 /\ 0 <= tm_min t < 60 /\ 0 <= tm_sec t <= 60 /\ -86400 < tm_gmtoff t < 86400.
(** A time as in the Common Log Format: [day/month/year:hour:minute:second zone]. *)
Inductive month_name : Z -> bytes -> Prop :=
| mon0 : month_name 0 (str "Jan") | mon1 : month_name 1 (str "Feb") | mon2 : month_name 2 (str "Mar")
| mon3 : month_name 3 (str "Apr") | mon4 : month_name 4 (str "May") | mon5 : month_name 5 (str "Jun")
| mon6 : month_name 6 (str "Jul") | mon7 : month_name 7 (str "Aug") | mon8 : month_name 8 (str "Sep")
| mon9 : month_name 9 (str "Oct") | mon10 : month_name 10 (str "Nov") | mon11 : month_name 11 (str "Dec").
Definition clf_time (t : tm) (s : bytes) : Prop :=
  exists D M Y h m sec sign zh zm, digits 2 D (tm_mday t) /\ month_name (tm_mon t) M /\ digits 4 Y (1900 + tm_year t) /\
    digits 2 h (tm_hour t) /\ digits 2 m (tm_min t) /\ digits 2 sec (tm_sec t) /\
    (sign = str "+" /\ 0 <= tm_gmtoff t \/ sign = str "-" /\ tm_gmtoff t < 0) /\
    (exists H M S, Z.abs (tm_gmtoff t) = 3600 * H + 60 * M + S /\ 0 <= M < 60 /\ 0 <= S < 60 /\ digits 2 zh H /\ digits 2 zm M) /\
    s = str "[" ++ D ++ str "/" ++ M ++ str "/" ++ Y ++ str ":" ++ h ++ str ":" ++ m ++ str ":" ++ sec ++ str " " ++
        sign ++ zh ++ zm ++ str "]".
(** A line of the access log for a request of [m] and [p] with the fields [hs] from [who] at
    the time [t], answered with [status] and a body of [size] octets. *)
Definition log_line (who : peer) (t : tm) (m p : bytes) (hs : list header) (status size : Z) (line : bytes) : Prop :=
  exists ip time st sz referrer agent, address who ip /\ clf_time t time /\ decimal st status /\ decimal sz size /\
    noted_field hs (str "referer") referrer /\ noted_field hs (str "user-agent") agent /\
    line = ip ++ str " - - " ++ time ++ [32; 34] ++ m ++ [32] ++ p ++ str " HTTP/2" ++ [34; 32] ++
           st ++ [32] ++ sz ++ [32; 34] ++ referrer ++ [34; 32; 34] ++ agent ++ [34; 10].

(** ** Durations *)
(** How [n] seconds are written: days, hours, minutes and seconds, from the first that is
    not zero on. *)
Inductive shown (n : Z) : bytes -> Prop :=
| shown_days : forall d h m s D H M S, n = 86400 * d + 3600 * h + 60 * m + s ->
    0 < d -> 0 <= h < 24 -> 0 <= m < 60 -> 0 <= s < 60 ->
    decimal D d -> decimal H h -> decimal M m -> decimal S s ->
    shown n (D ++ str "d " ++ H ++ str "h " ++ M ++ str "m " ++ S ++ str "s")
| shown_hours : forall h m s H M S, n = 3600 * h + 60 * m + s ->
    0 < h < 24 -> 0 <= m < 60 -> 0 <= s < 60 ->
    decimal H h -> decimal M m -> decimal S s ->
    shown n (H ++ str "h " ++ M ++ str "m " ++ S ++ str "s")
| shown_minutes : forall m s M S, n = 60 * m + s -> 0 < m < 60 -> 0 <= s < 60 ->
    decimal M m -> decimal S s -> shown n (M ++ str "m " ++ S ++ str "s")
| shown_seconds : forall S, 0 <= n < 60 -> decimal S n -> shown n (S ++ str "s").

(** ** Statistics *)
Definition answered_with (code : Z) (a : app_answer) : bool :=
  match a with Answers r => rs_status r =? code | _ => false end.
Definition completed (a : app_answer) : bool := match a with Answers _ => true | _ => false end.
Definition entered (a : app_answer) : bool := match a with Escapes => false | _ => true end.
Definition how_many (f : app_answer -> bool) (l : list app_answer) : Z := lenZ (filter f l).
