(** Proofs about all messages of the transports (C127). *)
From Verif Require Import Base BaseLemmas Http Transport SpecConn ConnTerm AppProofs AccessLog Messages Tls SpecTls TransportMessages TransportTrace SpecTransportTrace SpecDebug ReasonsProofs Files.

(** ** What is told is so *)
Ltac ifs := repeat match goal with |- context [if ?b then _ else _] => destruct b eqn:? end.
Lemma dec n : 0 <= n -> decimal (to_string n) n.
Proof. apply to_string_decimal. Qed.
Lemma tcp_read_record r why : (forall ret e, r = Failed ret e -> ret < 0) -> record (RepRead (tcp_read r)) (tcp_read_trace r why).
Proof.
  intros H. unfold tcp_read, tcp_read_trace. destruct r as [o|ret e]; cbn [returned].
  - pose proof (lenZ_nonneg o). replace (lenZ o <? 0) with false by lia. destruct (lenZ o =? 0) eqn:E.
    + apply (read_closed (str "TCP socket")). cbn. auto.
    + apply (read_octets o (str "TCP socket")); [intros ->; discriminate E|cbn; auto|now apply dec].
  - specialize (H ret e eq_refl). replace (ret <? 0) with true by lia. destruct ((e =? EAGAIN) || (e =? EWOULDBLOCK)).
    + apply (read_waits (str "TCP socket")). cbn. auto.
    + apply (read_fails (str "TCP socket")). cbn. auto.
Qed.
Lemma tcp_write_record size ret e why : record (RepWrite (tcp_write size ret e)) (tcp_write_trace size ret e why).
Proof.
  unfold tcp_write, tcp_write_trace. destruct (ret <? 0) eqn:E.
  - destruct ((e =? EAGAIN) || (e =? EWOULDBLOCK)); [apply write_waits; cbn; auto|apply write_fails].
  - destruct (negb (ret =? size)); [apply (wrote_part ret (str "TCP"))|apply (wrote ret (str "TCP socket"))]; cbn; auto; apply dec; lia.
Qed.
Lemma tls_read_record r : (forall ret e, r = Failed ret e -> ret <= 0) ->
  record (RepRead (tls_read r)) (tls_read_trace (returned r) (match r with Failed _ e => e | Got _ => 0 end)).
Proof.
  intros H. unfold tls_read, tls_read_trace. destruct (returned r <=? 0) eqn:E; cbn [andb].
  - ifs; try (apply (read_waits (str "SSL")); cbn; tauto); [apply (read_closed (str "SSL")); cbn; tauto|apply read_wrong|apply (read_fails (str "SSL")); cbn; tauto].
  - destruct r as [o|ret e]; [|specialize (H ret e eq_refl); cbn in E; lia]. cbn [returned] in *.
    apply (read_octets o (str "SSL")); [intros ->; discriminate E|cbn; auto|]. apply dec. lia.
Qed.
Lemma tls_write_record size ret e : record (RepWrite (tls_write size ret e)) (tls_write_trace size ret e).
Proof.
  unfold tls_write, tls_write_trace. destruct (ret <? 0) eqn:E.
  - ifs; try (apply write_waits; cbn; tauto); [apply write_closed|apply (write_wrong (str "_SSL"))|apply (write_wrong (str "=" ++ to_string e))].
  - destruct (negb (ret =? to_int size)); [apply (wrote_part ret (str "SSL"))|apply (wrote ret (str "SSL"))]; cbn; auto; apply dec; lia.
Qed.
Lemma handshake_record describe o q : record (RepHandshake (fst (handshake o q))) (handshake_trace describe o).
Proof.
  unfold handshake, handshake_trace. set (q1 := raise (raised o) []).
  assert (K : forall x, SSL_get_error q1 o = x -> x = 1 \/ x = 2 \/ x = 3 \/ x = 5 \/ x = 6).
  { intros x <-. unfold SSL_get_error. destruct q1 as [|e q1]; [destruct o as [|[]| | |]|destruct (err_lib e =? ERR_LIB_SYS)]; cbv; tauto. }
  destruct o; [constructor|..]; (destruct (K _ eq_refl) as [E|[E|[E|[E|E]]]]; rewrite E; clear E);
    cbn [SSL_ERROR_ZERO_RETURN SSL_ERROR_WANT_READ SSL_ERROR_WANT_WRITE SSL_ERROR_SSL Z.eqb Pos.eqb orb];
    try (destruct (ERR_get_error q1) as [e1 q2]; destruct (err_reason e1 =? _)); try apply shake_wrong; try apply shake_waits; try (apply shake_closed; cbn; tauto).
Qed.
Lemma call_record describe c q : sane c -> record (fst (call c q)) (call_trace describe c q).
Proof.
  destruct c as [o|clears o data ret|clears o size taken ret]; intros H.
  - cbn [call call_trace]. pose proof (handshake_record describe o q) as R. now destruct (handshake o q).
  - cbn [call call_trace]. unfold read, read_trace. set (q1 := raise _ _).
    destruct o; cbn [fst]; [exact (tls_read_record (Got data) ltac:(discriminate))|..];
      (refine (tls_read_record (Failed ret _) _); intros x y [= <- <-]; exact H).
  - cbn [call call_trace]. unfold write, write_trace. destruct o; cbn [fst]; apply tls_write_record.
Qed.

(** ** The messages can be read back *)
Definition dull (m : message) : bool := starts_with (m_text m) (str "ALPN ").
Lemma record_dull r ms : record r ms -> filter (fun m => negb (dull m)) ms = ms.
Proof.
  intros H. destruct H; cbn [In] in *; repeat match goal with H : _ \/ _ |- _ => destruct H as [H|H] | H : False |- _ => destruct H | H : (_, _) = (_, _) |- _ => injection H as <- <- | H : _ = ?x |- _ => is_var x; subst x end; reflexivity.
Qed.
Lemma alpn_dull ms : Forall about_protocol ms -> filter (fun m => negb (dull m)) ms = [].
Proof. induction 1 as [|m ms H _ IH]; [reflexivity|]. destruct H as [<-|[<-|[]]]; exact IH. Qed.

Ltac cases :=
  cbn [In] in *; repeat match goal with
    | H : _ \/ _ |- _ => destruct H as [H|H]
    | H : False |- _ => destruct H
    | H : (_, _) = (_, _) |- _ => injection H as <- <-
    | H : _ = ?x |- _ => is_var x; subst x
  end.
(** The first messages of two calls tell the same. *)
Lemma record_first r ms x r' ms' x' : record r ms -> record r' ms' -> mentioned r = true -> mentioned r' = true ->
  ms ++ x = ms' ++ x' -> alike r r' /\ x = x'.
Proof.
  intros H H' M M' E. destruct H; destruct H'; cases; try discriminate M; try discriminate M'; cbn in E; try discriminate E.
  all: injection E; intros; subst; (split; [|first [reflexivity|assumption]]); try reflexivity; cbn [alike];
    match goal with
    | D : decimal ?n _, D' : decimal ?n' _, K : ?n ++ _ = ?n' ++ _ |- _ =>
      let Q := fresh in assert (Q : n = n') by (refine (proj1 (digits_end _ _ _ _ _ _ _ _ D D' _ _ K)); lia); subst n'; pose proof (decimal_value _ _ _ D D'); congruence
    end.
Qed.
Lemma record_ne r ms : record r ms -> mentioned r = true -> ms <> [].
Proof. intros H. destruct H; easy. Qed.
Lemma records_alike rs mss : Forall2 record rs mss -> forall rs' mss', Forall2 record rs' mss' -> concat mss = concat mss' ->
  Forall2 alike (filter mentioned rs) (filter mentioned rs').
Proof.
  induction 1 as [|r ms rs mss H _ IH]; intros rs' mss' H' E.
  - cbn in *. induction H' as [|r' ms' rs' mss' R _ IH]; [constructor|]. cbn in *. symmetry in E. apply app_eq_nil in E as [E1 E2].
    destruct (mentioned r') eqn:M; [now apply record_ne in R|]. now apply IH.
  - cbn [filter concat] in *. destruct (mentioned r) eqn:M.
    + induction H' as [|r' ms' rs' mss' R H1 IH']; [apply app_eq_nil in E as [E _]; now apply record_ne in H|].
      cbn [filter concat] in *. destruct (mentioned r') eqn:M'.
      * destruct (record_first _ _ _ _ _ _ H R M M' E) as [A E']. constructor; [exact A|]. now apply (IH _ mss').
      * destruct r' as [[|]| |]; try discriminate M'. inversion R; subst. apply IH'. exact E.
    + destruct r as [[|]| |]; try discriminate M. inversion H; subst. apply (IH _ mss'); assumption.
Qed.
Lemma recorded_alike rs mss rs' mss' : Forall2 recorded rs mss -> Forall2 recorded rs' mss' -> concat mss = concat mss' ->
  Forall2 alike (filter mentioned rs) (filter mentioned rs').
Proof.
  assert (P : forall rs mss, Forall2 recorded rs mss -> exists l, Forall2 record rs l /\ filter (fun m => negb (dull m)) (concat mss) = concat l).
  { induction 1 as [|r ms rs0 mss0 (h & x & -> & Hh & Hx) _ (l & IH1 & IH2)]; [now exists []|]. exists (x :: l). split; [now constructor|].
    cbn [concat]. rewrite !filter_app, alpn_dull, (record_dull _ _ Hx), IH2 by exact Hh. reflexivity. }
  intros H H' E. destruct (P _ _ H) as (l & L1 & L2), (P _ _ H') as (l' & L1' & L2'). apply (records_alike _ _ L1 _ _ L1'). congruence.
Qed.
