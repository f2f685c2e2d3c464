(** Proofs about the error queue of the TLS library (C88). *)
From Verif Require Import Base BaseLemmas Http SocketProofs Transport Tls SpecTls.

Lemma raise_nil q : (length q <= 15)%nat -> raise [] q = q.
Proof. intros H. unfold raise. rewrite app_nil_r. replace (length q - 15)%nat with O by lia. reflexivity. Qed.
Lemma raise_one e : raise [e] [] = [e].
Proof. reflexivity. Qed.
Lemma raise_length es q : (length (raise es q) <= 15)%nat.
Proof. unfold raise. rewrite skipn_length. lia. Qed.
Lemma raise_some es q : q ++ es <> [] -> raise es q <> [].
Proof.
  intros H E. apply (f_equal (@length _)) in E. unfold raise in E. rewrite skipn_length in E. cbn [length] in E.
  destruct (q ++ es); [easy|]. cbn [length] in E. lia.
Qed.
Lemma raise_in e es q : In e (raise es q) -> In e (q ++ es).
Proof. unfold raise. intros H. rewrite <- (firstn_skipn (length (q ++ es) - 15)). apply in_or_app. now right. Qed.

(** What a call leaves. *)
Lemma call_length c q : (length q <= 15)%nat -> (length (snd (call c q)) <= 15)%nat.
Proof.
  intros Hq. assert (Hp : forall p : queue, (length (snd (ERR_get_error p)) <= length p)%nat) by (intros [|x p]; cbn; lia).
  destruct c as [o|b o d r|b o z k r]; cbn [call].
  - unfold handshake. set (p := raise (raised o) []). assert (HP : (length p <= 15)%nat) by apply raise_length.
    destruct o; [exact HP|..];
    repeat match goal with
    | |- context[if ?b then _ else _] => destruct b
    | |- context[let (_, _) := ERR_get_error ?p in _] =>
        let G := fresh in pose proof (Hp p) as G; destruct (ERR_get_error p) as [? ?]; cbn [snd] in G
    end; cbn [snd]; auto; try (etransitivity; [apply Hp|lia]); lia.
  - unfold read. set (p := raise _ _). assert (HP : (length p <= 15)%nat) by apply raise_length. now destruct o.
  - unfold write. set (p := raise _ _). assert (HP : (length p <= 15)%nat) by apply raise_length. now destruct o.
Qed.
(** A harmless call leaves nothing new. *)
Lemma call_harmless c q : ~ harmful c -> (q = [] \/ empties c) -> snd (call c q) = [].
Proof.
  intros H Hq. destruct c as [o|b o d r|b o z k r]; cbn [call harmful empties] in *.
  - destruct o as [|[]| |e [|e2 es]|]; try reflexivity; unfold handshake; cbn [raised].
    + rewrite raise_one. unfold SSL_get_error.
      destruct (err_lib e =? ERR_LIB_SYS); [reflexivity|]. cbn. destruct (err_reason e =? SSL_R_UNEXPECTED_EOF_WHILE_READING); reflexivity.
    + assert (H1 : es = []) by (destruct es; [reflexivity|]; elim H; left; discriminate). subst es.
      change (raise [e; e2] []) with [e; e2]. unfold SSL_get_error.
      destruct (Z.eqb_spec (err_lib e) ERR_LIB_SYS); [elim H; auto|]. cbn [Z.eqb Pos.eqb orb SSL_ERROR_SSL SSL_ERROR_ZERO_RETURN SSL_ERROR_WANT_READ SSL_ERROR_WANT_WRITE ERR_get_error].
      destruct (Z.eqb_spec (err_reason e) SSL_R_UNEXPECTED_EOF_WHILE_READING); [elim H; auto|]. reflexivity.
  - assert (E : (if b then [] else q) = []) by (destruct Hq as [->| ->]; [now destruct b|reflexivity]).
    unfold read. rewrite E. destruct o; try reflexivity. now elim H.
  - assert (E : (if b then [] else q) = []) by (destruct Hq as [->| ->]; [now destruct b|reflexivity]).
    unfold write. rewrite E. destruct o; try reflexivity. now elim H.
Qed.

Lemma calls_app l1 l2 q : calls (l1 ++ l2) q =
  (fst (calls l1 q) ++ fst (calls l2 (snd (calls l1 q))), snd (calls l2 (snd (calls l1 q)))).
Proof.
  revert q. induction l1 as [|[n c] l1 IH]; intros q; cbn [Datatypes.app calls]; [cbn [fst snd Datatypes.app]; apply surjective_pairing|].
  destruct (call c q) as [r q']. rewrite IH. destruct (calls l1 q') as [rs q'']. cbn [fst snd]. now destruct (calls l2 q'').
Qed.
Lemma calls_fst l q : map fst (fst (calls l q)) = map fst l.
Proof. revert q. induction l as [|[n c] l IH]; intros q; cbn [calls map]; [reflexivity|]. destruct (call c q) as [r q']. specialize (IH q'). destruct (calls l q'). cbn in *. congruence. Qed.
Lemma calls_length l q : length (fst (calls l q)) = length l.
Proof. rewrite <- (map_length fst (fst _)), calls_fst. now rewrite map_length. Qed.

Lemma empties_dec c : {empties c} + {~ empties c}.
Proof. destruct c as [o|[]|[]]; cbn; [left; exact I|now left|now right|now left|now right]. Qed.

Lemma clean_queue l : clean l -> snd (calls l []) = [].
Proof.
  induction l as [|[n c] l IH] using rev_ind; intros H; [reflexivity|]. rewrite calls_app. cbn [snd]. cbn [calls].
  assert (Hc : ~ harmful c).
  { intros Hh. destruct (H l (n, c) [] eq_refl Hh) as (y & [] & _). }
  destruct (empties_dec c) as [He|He].
  - pose proof (call_harmless c (snd (calls l [])) Hc (or_intror He)) as E. destruct (call c _) as [r q']. cbn in *. exact E.
  - assert (E0 : snd (calls l []) = []).
    { apply IH. intros l1 x l2 -> Hx. destruct (H l1 x (l2 ++ [(n, c)])) as (y & Hy & Ey); [now rewrite <- app_assoc|exact Hx|].
      apply in_app_iff in Hy as [Hy|[<-|[]]]; [eauto|now elim He]. }
    rewrite E0. pose proof (call_harmless c [] Hc (or_introl eq_refl)) as E. destruct (call c _) as [r q']. cbn in *. exact E.
Qed.
(** With nothing left, the report is right. *)
Lemma call_right c q : sane c -> (q = [] \/ empties c) -> said (fst (call c q)) = deserved c.
Proof.
  intros H Hq. destruct c as [o|b o d r|b o z k r]; cbn [call sane empties] in *; unfold deserved; cbn [own_outcome].
  - destruct o as [|[]| |e es|]; try reflexivity. unfold handshake. cbn [raised].
    destruct (raise (e :: es) []) as [|e0 q'] eqn:E; [now apply raise_some in E|]. unfold SSL_get_error.
    destruct (err_lib e0 =? ERR_LIB_SYS); [reflexivity|]. cbn. destruct (err_reason e0 =? SSL_R_UNEXPECTED_EOF_WHILE_READING); reflexivity.
  - assert (E : (if b then [] else q) = []) by (destruct Hq as [->| ->]; [now destruct b|reflexivity]).
    unfold read. rewrite E. destruct o as [|rd| |e es|]; cbn [raised].
    + unfold tls_read, returned. destruct d as [|x d]; [easy|]. replace (lenZ (x :: d) <=? 0) with false; [reflexivity|].
      symmetry. apply Z.leb_gt. unfold lenZ. cbn [length]. lia.
    + unfold tls_read, returned. apply Z.leb_le in H. rewrite H. now destruct rd.
    + unfold tls_read, returned. apply Z.leb_le in H. rewrite H. reflexivity.
    + destruct (raise (e :: es) []) as [|e0 q'] eqn:E1; [now apply raise_some in E1|].
      unfold tls_read, returned. apply Z.leb_le in H. rewrite H. unfold SSL_get_error. now destruct (err_lib e0 =? ERR_LIB_SYS).
    + unfold tls_read, returned. apply Z.leb_le in H. rewrite H. reflexivity.
  - assert (E : (if b then [] else q) = []) by (destruct Hq as [->| ->]; [now destruct b|reflexivity]).
    unfold write. rewrite E. destruct o as [|rd| |e es|]; cbn [raised].
    + destruct H as [-> [H H']]. unfold tls_write. rewrite to_int_small by lia. apply Z.ltb_ge in H. rewrite H, Z.eqb_refl. reflexivity.
    + unfold tls_write. apply Z.ltb_lt in H. rewrite H. now destruct rd.
    + unfold tls_write. apply Z.ltb_lt in H. rewrite H. reflexivity.
    + destruct (raise (e :: es) []) as [|e0 q'] eqn:E1; [now apply raise_some in E1|].
      unfold tls_write. apply Z.ltb_lt in H. rewrite H. unfold SSL_get_error. now destruct (err_lib e0 =? ERR_LIB_SYS).
    + unfold tls_write. apply Z.ltb_lt in H. rewrite H. reflexivity.
Qed.
Lemma nth_report l1 n c l2 : nth_error (fst (calls (l1 ++ (n, c) :: l2) [])) (length l1) = Some (n, fst (call c (snd (calls l1 [])))).
Proof.
  rewrite calls_app. cbn [fst]. rewrite nth_error_app2; rewrite calls_length; [|lia]. rewrite Nat.sub_diag. cbn [calls].
  destruct (call c _) as [r q']. destruct (calls l2 q'). reflexivity.
Qed.

(** What is left over stays. *)
Lemma call_keeps c q : q <> [] -> (length q <= 15)%nat -> ~ empties c -> snd (call c q) <> [].
Proof.
  intros Hq Hl He. destruct c as [o|b o d r|b o z k r]; cbn [call empties] in *; [now elim He|..]; destruct b; try easy.
  - assert (E : snd (read false o d r q) = raise (raised o) q) by (unfold read; now destruct o). destruct (read false o d r q). cbn in *. rewrite E.
    apply raise_some. destruct q; easy.
  - assert (E : snd (write false o z k r q) = raise (raised o) q) by (unfold write; now destruct o). destruct (write false o z k r q). cbn in *. rewrite E.
    apply raise_some. destruct q; easy.
Qed.
Lemma calls_bounded l q : (length q <= 15)%nat -> (length (snd (calls l q)) <= 15)%nat.
Proof.
  revert q. induction l as [|[n c] l IH]; intros q H; [exact H|]. cbn [calls]. pose proof (call_length c q H) as G.
  destruct (call c q) as [r q']. cbn [snd] in G. specialize (IH q' G). now destruct (calls l q').
Qed.
Lemma left_queue l : left_over l -> snd (calls l []) <> [].
Proof.
  intros (l1 & n & c & l2 & -> & Hc & Hl). rewrite calls_app. cbn [snd]. set (q := snd (calls l1 [])).
  assert (Hq : (length q <= 15)%nat) by (apply calls_bounded; cbn; lia). clearbody q. cbn [calls].
  assert (H1 : snd (call c q) <> [] /\ (length (snd (call c q)) <= 15)%nat).
  { split; [|now apply call_length]. destruct c as [o|b o d r|b o z k r]; [easy|..]; destruct Hc as (e & es & E); cbn [own_outcome] in E; subst o; cbn [call].
    - unfold read. cbn [raised snd]. apply raise_some. intros E. apply app_eq_nil in E as [_ E]. discriminate.
    - unfold write. cbn [raised snd]. apply raise_some. intros E. apply app_eq_nil in E as [_ E]. discriminate. }
  destruct (call c q) as [r q1]. cbn [snd] in H1. destruct H1 as [H1 H2].
  assert (G : forall q1, q1 <> [] -> (length q1 <= 15)%nat -> snd (calls l2 q1) <> []).
  { clear -Hl. induction l2 as [|[m d] l2 IH]; intros q1 H1 H2; [exact H1|]. cbn [calls].
    pose proof (call_keeps d q1 H1 H2 (Hl (m, d) (or_introl eq_refl))) as K1. pose proof (call_length d q1 H2) as K2.
    destruct (call d q1) as [r q2]. cbn [snd] in K1, K2. specialize (IH (fun y Hy => Hl y (or_intror Hy)) q2 K1 K2). now destruct (calls l2 q2). }
  specialize (G q1 H1 H2). now destruct (calls l2 q1).
Qed.
(** Errors in the queue are of the calls made. *)
Lemma call_origin c q e : In e (snd (call c q)) -> In e q \/ exists e0 es, own_outcome c = TlsFails e0 es /\ In e (e0 :: es).
Proof.
  assert (Hr : forall o p, In e (raise (raised o) p) -> In e p \/ exists e0 es, o = TlsFails e0 es /\ In e (e0 :: es)).
  { intros o p H. apply raise_in, in_app_iff in H as [H|H]; [now left|]. destruct o; try easy. right. eauto. }
  assert (Hp : forall p : queue, In e (snd (ERR_get_error p)) -> In e p) by (intros [|x p]; cbn; tauto).
  destruct c as [o|b o d r|b o z k r]; cbn [call own_outcome].
  - unfold handshake. set (p := raise (raised o) []).
    assert (HP : In e p -> In e q \/ exists e0 es, o = TlsFails e0 es /\ In e (e0 :: es)) by (intros H; destruct (Hr _ _ H) as [[]|H']; now right).
    destruct o; [exact HP|..];
    repeat match goal with
    | |- context[if ?b then _ else _] => destruct b
    | |- context[let (_, _) := ERR_get_error ?p in _] =>
        let G := fresh in pose proof (Hp p) as G; destruct (ERR_get_error p) as [? ?]; cbn [snd] in G
    end; cbn [snd]; auto.
  - unfold read. intros H. assert (H' : In e (raise (raised o) (if b then [] else q))) by (destruct o; exact H).
    destruct (Hr _ _ H') as [K|K]; [|now right]. destruct b; [easy|now left].
  - unfold write. intros H. assert (H' : In e (raise (raised o) (if b then [] else q))) by (destruct o; exact H).
    destruct (Hr _ _ H') as [K|K]; [|now right]. destruct b; [easy|now left].
Qed.
Lemma calls_origin l q e : In e (snd (calls l q)) -> In e q \/ exists x e0 es, In x l /\ own_outcome (snd x) = TlsFails e0 es /\ In e (e0 :: es).
Proof.
  revert q. induction l as [|[n c] l IH]; intros q; [now left|]. cbn [calls]. pose proof (call_origin c q e) as G. destruct (call c q) as [r q'].
  specialize (IH q'). destruct (calls l q') as [rs q'']. cbn [snd] in *. intros H. destruct (IH H) as [K|(x & e0 & es & K1 & K2)].
  - destruct (G K) as [|(e0 & es & K')]; [now left|right]. exists (n, c), e0, es. split; [now left|exact K'].
  - right. exists x, e0, es. split; [now right|exact K2].
Qed.
(** Whoever would have to wait is told that TLS has failed. *)
Lemma call_wrong c q b : sane c -> q <> [] -> (forall e, In e q -> err_lib e <> ERR_LIB_SYS) -> ~ empties c -> own_outcome c = TlsWants b ->
  (length q <= 15)%nat ->
  fst (call c q) = match c with CallWrite _ _ _ _ _ => RepWrite (WrErr TransportProtocolError) | _ => RepRead (RdErr TransportProtocolError) end.
Proof.
  intros Hs Hq Hp He Ho Hl. destruct c as [o|cl o d r|cl o z k r]; cbn [call sane empties own_outcome] in *; [now elim He|..]; subst o; destruct cl; try easy.
  - unfold read. cbn [raised]. rewrite raise_nil by exact Hl. destruct q as [|e q]; [easy|]. unfold SSL_get_error.
    assert (G : err_lib e =? ERR_LIB_SYS = false) by (apply Z.eqb_neq, Hp; now left). rewrite G. unfold tls_read, returned. apply Z.leb_le in Hs. now rewrite Hs.
  - unfold write. cbn [raised]. rewrite raise_nil by exact Hl. destruct q as [|e q]; [easy|]. unfold SSL_get_error.
    assert (G : err_lib e =? ERR_LIB_SYS = false) by (apply Z.eqb_neq, Hp; now left). rewrite G. unfold tls_write. apply Z.ltb_lt in Hs. now rewrite Hs.
Qed.

(** Which call an observation shows. *)
Lemma shows_split rs h : shows rs h -> forall h1 n ev h2, h = h1 ++ (n, ev) :: h2 -> gives_up ev = true ->
  exists r1 r r2, rs = r1 ++ (n, r) :: r2 /\ shows r1 h1 /\ said r = Over.
Proof.
  induction 1; intros h1 m ev h2 E Hg.
  1: destruct h1; discriminate.
  1: { destruct (IHshows _ _ _ _ E Hg) as (r1 & rp & r2 & -> & K & K'). exists ((n, RepHandshake (HsErr WantReadOrWrite)) ::  r1), rp, r2.
       split; [reflexivity|]. split; [now constructor|exact K']. }
  all: destruct h1 as [|y h1]; [injection E as ? ? ?; subst; try discriminate|injection E as <- ->].
  all: try (destruct (IHshows _ _ _ _ eq_refl Hg) as (r1 & rp & r2 & -> & K & K')).
  all: try match goal with |- exists _ _ _, ?x :: ?a ++ _ = _ /\ _ => exists (x :: a), rp, r2; split; [reflexivity|split; [now constructor|exact K']] end.
  all: try (exists r1, rp, r2; split; [reflexivity|split; [now constructor|exact K']]).
  all: try (eexists [], _, _; split; [reflexivity|split; [constructor|]]).
  all: try (destruct e; try discriminate; try reflexivity).
  all: try reflexivity.
  now elim H.
Qed.
Lemma calls_split l q r1 n r r2 : fst (calls l q) = r1 ++ (n, r) :: r2 ->
  exists l1 c l2, l = l1 ++ (n, c) :: l2 /\ r1 = fst (calls l1 q) /\ r = fst (call c (snd (calls l1 q))).
Proof.
  revert q r1. induction l as [|[m c] l IH]; intros q r1 E; [destruct r1; discriminate|]. cbn [calls] in E.
  destruct (call c q) as [rc q'] eqn:Ec. destruct (calls l q') as [rs q''] eqn:El. cbn [fst] in E. destruct r1 as [|y r1].
  - injection E as -> -> ->. exists [], c, l. cbn [calls fst snd]. rewrite Ec. repeat split; reflexivity.
  - injection E as <- ->. destruct (IH q' r1) as (l1 & d & l2 & -> & E1 & E2); [now rewrite El|]. exists ((m, c) :: l1), d, l2.
    split; [reflexivity|]. cbn [calls]. rewrite Ec. destruct (calls l1 q') as [x y]. cbn [fst snd] in *. split; [now rewrite E1|exact E2].
Qed.
