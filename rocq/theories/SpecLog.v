(** The access log of the whole server. *)
From Verif Require Import Base Http SpecConn AccessLog SpecApp.

(** What became of the field list of one request: a response was sent, after the
    application was asked or not ([served]); or the application's answer was an exception
    that ends the connection. *)
Inductive handling :=
| Replied (fields : list header) (asked : list (request * option response)) (sent : response)
| Abandoned (rq : request).
Definition handling_ok (x : handling) : Prop :=
  match x with Replied hs l r => served hs l r | Abandoned _ => True end.
Definition asked_by (x : handling) : list (request * option response) :=
  match x with Replied _ l _ => l | Abandoned rq => [(rq, None)] end.
(** The requests in the observations of all connections. *)
Definition asked_in (h : list (nat * event)) : list (nat * (request * option response)) :=
  flat_map (fun x => map (pair (fst x)) (requests [snd x])) h.

(** The log file: one line for each response, with the address of its client. *)
Inductive written (peers : nat -> peer) : list (nat * handling) -> list tm -> bytes -> Prop :=
| written_none : written peers [] [] []
| written_line : forall n hs l r m p t line xs ts o,
    noted_field hs (str ":method") m -> noted_field hs (str ":path") p ->
    log_line (peers n) t m p hs (rs_status r) (lenZ (rs_body r)) line -> written peers xs ts o ->
    written peers ((n, Replied hs l r) :: xs) (t :: ts) (line ++ o)
| written_not : forall n rq xs ts o, written peers xs ts o -> written peers ((n, Abandoned rq) :: xs) ts o.

(** Case-insensitive comparison, as the option parser's [ignore_case]. *)
Definition lower (s : bytes) : bytes := map (fun c => if (65 <=? c) && (c <=? 90) then c + 32 else c) s.
(** The values --log-level takes. *)
Definition level_names : list bytes :=
  [str "trace"; str "debug"; str "info"; str "warn"; str "error"; str "critical"; str "off"].
Definition level_accepted (s : bytes) : Prop := In (lower s) level_names.
