(** Clients that read slowly: what the system takes for them.  Independent of how the server
    goes about it. *)
From Verif Require Import Base Huffman Http Conn SpecConn Poller Server SpecServer.

(** Nothing was taken by a write that is reported to have failed. *)
Definition true_writes (tr : trace) : Prop :=
  Forall (fun e => match e with EvWrite _ _ taken (Error _) => taken = [] | _ => True end) tr.
Definition total (ns : list Z) : Z := fold_right Z.add 0 ns.

Section Spec.
  Variable linux : bool.
  Variable listener : Z.
  Variable W : Type.
  Variable app : request -> W -> W * app_answer.
  Variable cs : bool.
  Variable T : tree.

  (** In this iteration the system reports that the socket can be written to (bit 2), not
      that it is broken (bits 3 and 4), and takes up to [n] octets from the next write; what
      the client did last (read something or send something) is not more than 5 s ago. *)
  Record takes (s : server W) (fd : Z) (it : iteration) (a : surroundings) (n : Z) : Prop := {
    tk_ok : iteration_ok it /\ enough_resources it;
    tk_event : exists evs m, it_wait it = WaitEvents evs /\ NoDup (map fst evs) /\
      (linux = true -> lenZ evs <= p_size (sv_poller W s)) /\ In (fd, (m, a)) evs /\
      Z.testbit m 2 = true /\ Z.testbit m 3 = false /\ Z.testbit m 4 = false;
    tk_write : 1 <= n /\ exists now more, sc_wr (ar_scripts a) = (now, WrOk n) :: more;
    tk_time : forall e, conn_at W s fd e -> it_clock it fd - last_success (e_born e) (e_trace e) <= 5000000000 }.
  (** In this one nothing is reported about the socket. *)
  Record silent (s : server W) (fd : Z) (it : iteration) : Prop := {
    si_ok : iteration_ok it /\ enough_resources it;
    si_event : forall evs, it_wait it = WaitEvents evs -> ~ In fd (map fst evs);
    si_time : forall e, conn_at W s fd e -> it_clock it fd - last_success (e_born e) (e_trace e) <= 5000000000 }.
  (** Such iterations, one after the other; the numbers are those of the octets taken. *)
  Inductive draining (fd : Z) : server W -> list Z -> server W -> Prop :=
  | drain_none : forall s, draining fd s [] s
  | drain_more : forall s it a n s1 ns s', takes s fd it a n -> iterate linux listener W app cs T it s = Ret s1 ->
      draining fd s1 ns s' -> draining fd s (n :: ns) s'
  | drain_later : forall s it s1 ns s', silent s fd it -> iterate linux listener W app cs T it s = Ret s1 ->
      draining fd s1 ns s' -> draining fd s ns s'.
End Spec.
