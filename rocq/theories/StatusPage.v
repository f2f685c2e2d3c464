(** Model of the text of the status page, app/status_page.cpp:40-237. *)
From Verif Require Import Base AccessLog App StatusText.

(** n / d as an integer, to nearest, ties to even. *)
Definition half_even (n d : Z) : Z :=
  let q := n / d in
  if 2 * (n mod d) <? d then q
  else if 2 * (n mod d) >? d then q + 1
  else if Z.even q then q else q + 1.
(** The double nearest to a / b for a >= 0, b > 0 (IEEE 754, ties to even): 53 binary digits.
    Numbers of the sizes that occur here are far from overflow and underflow.  A double
    is given as a fraction. *)
Definition to_double (a b : Z) : Z * Z :=
  if a =? 0 then (0, 1)
  else
    let k := Z.log2 a - Z.log2 b in
    let e := (if b * 2 ^ Z.max 0 k <=? a * 2 ^ Z.max 0 (- k) then k else k - 1) - 52 in
    let m := half_even (a * 2 ^ Z.max 0 (- e)) (b * 2 ^ Z.max 0 e) in
    (m * 2 ^ Z.max 0 e, 2 ^ Z.max 0 (- e)).
(** (double)d / total / 1000.0, status_page.cpp:46, for d >= 0. *)
Definition average (d total : Z) : Z * Z :=
  let (x, dx) := to_double d 1 in
  let (y, dy) := to_double total 1 in
  let (q, dq) := to_double (x * dy) (dx * y) in
  to_double q (dq * 1000).
(** How a stream prints a double with std::fixed and std::setprecision(2): the exact value
    rounded to hundredths (glibc), with its sign. *)
Definition fixed2 (r : Z * Z) : bytes :=
  let h := half_even (100 * fst r) (snd r) in to_string (h / 100) ++ str "." ++ two (h mod 100).
(** avg_lat as printed, status_page.cpp:45-46 and 213. *)
Definition latency_text (d total : Z) : bytes :=
  if total >? 0 then (if d <? 0 then str "-" else []) ++ fixed2 (average (Z.abs d) total) else fixed2 (0, 1).

(** uptime_sec, status_page.cpp:41-43, as the argument of format_duration.  steady_clock counts nanoseconds. *)
Definition uptime_sec (start now : Z) : Z := u64 (Z.quot (now - start) 1000000000).

(** The loop over status_codes, status_page.cpp:219-226. *)
Definition badge (x : Z * Z) : bytes :=
  str "<div class='code-badge'><span class='code-num'>" ++ to_string (fst x) ++ str "</span>" ++ to_string (snd x) ++ str "</div>".
(** status_codes and their counts, status_page.cpp:222-225. *)
Definition badges (m : list (Z * Z)) : bytes :=
  match m with
  | [] => str "<em>No requests yet</em>"
  | _ :: _ => flat_map badge m
  end.

(** The body, 48-237.  [version]: BUILD_VERSION; [id] and [start]: the server_id and start_time
    of ServerStats (server_stats.h:9-13). *)
Definition page_text (version id : bytes) (start : Z) (s : stats) (now : Z) : bytes :=
  TEXT_HEAD ++ format_duration (uptime_sec start now) ++
  TEXT_REQUESTS ++ to_string (total_requests s) ++
  TEXT_LATENCY ++ latency_text (total_duration_us s) (total_requests s) ++
  TEXT_CODES ++ badges (status_codes s) ++
  TEXT_VERSION ++ version ++ TEXT_ID ++ id ++ TEXT_TAIL.
