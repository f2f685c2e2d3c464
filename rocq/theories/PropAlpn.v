(** C68, C107: the choice of the application protocol. *)
From Verif Require Import Base BaseLemmas Alpn.

(** RFC 7301: the client's list of protocol names, each 1 to 255 octets with its length in
    front. *)
Definition wire (names : list bytes) : bytes := flat_map (fun n : bytes => lenZ n :: n) names.
Definition offer (names : list bytes) (o : bytes) : Prop :=
  names <> [] /\ Forall (fun n => 1 <= lenZ n <= 255) names /\ o = wire names.

Lemma same_octets_spec a : forall b, (length a <= length b)%nat -> exists x, same_octets a b = Ret x /\ (x = true <-> firstn (length a) b = a).
Proof.
  induction a as [|x a IH]; intros b Hb; [exists true; split; [reflexivity|easy]|]. destruct b as [|y b]; [cbn in Hb; lia|].
  cbn [same_octets length firstn]. destruct (Z.eqb_spec x y) as [->|N].
  - destruct (IH b) as (v & -> & Hv); [cbn in Hb; lia|]. exists v. split; [reflexivity|]. rewrite Hv. split; [now intros ->|now intros [= H]].
  - exists false. split; [reflexivity|]. split; [discriminate|]. intros [= E _]. congruence.
Qed.
Lemma offered_spec p names : forall fuel, Forall (fun n => 1 <= lenZ n <= 255) names -> (length names <= fuel)%nat ->
  exists x, offered fuel p (wire names) = Ret x /\ (x = true <-> In p names).
Proof.
  induction names as [|n names IH]; intros fuel Hn Hf; [exists false; destruct fuel; (split; [reflexivity|easy])|].
  apply Forall_cons_iff in Hn as [H1 Hn]. destruct fuel as [|fuel]; [cbn in Hf; lia|]. change (wire (n :: names)) with (lenZ n :: n ++ wire names). cbn [offered].
  assert (ES : skipn (Z.to_nat (lenZ n)) (n ++ wire names) = wire names).
  { unfold lenZ at 1. rewrite Nat2Z.id, skipn_app, skipn_all, Nat.sub_diag. reflexivity. }
  destruct (IH fuel Hn ltac:(cbn in Hf; lia)) as (x & Ex & Hx).
  destruct (Z.eqb_spec (lenZ n) (lenZ p)) as [E|N].
  - assert (EL : length n = length p) by (unfold lenZ in E; lia).
    destruct (same_octets_spec p (n ++ wire names)) as (v & -> & Hv); [rewrite app_length; lia|]. cbn [obind].
    rewrite <- EL, firstn_app, firstn_all, Nat.sub_diag, app_nil_r in Hv. destruct v.
    + exists true. split; [reflexivity|]. split; [intros _; left; now apply Hv|reflexivity].
    + rewrite ES, Ex. exists x. split; [reflexivity|]. rewrite Hx. cbn [In]. split; [auto|]. intros [K|K]; [|exact K]. apply Hv in K. discriminate.
  - cbn [obind]. rewrite ES, Ex. exists x. split; [reflexivity|]. rewrite Hx. cbn [In]. split; [auto|]. intros [K|K]; [subst n; congruence|exact K].
Qed.
Lemma names_length names : Forall (fun n => 1 <= lenZ n <= 255) names -> (length names <= length (wire names))%nat.
Proof. induction 1 as [|n names _ _ IH]; [cbn; lia|]. change (wire (n :: names)) with (lenZ n :: n ++ wire names). cbn [length]. rewrite app_length. lia. Qed.

(** ** C68.  Whatever the client offers, the callback succeeds with the name h2, which it takes
    from its own static array; the debug message says whether the client offered it. *)
Theorem C68_alpn : forall names o, offer names o ->
  exists negotiated, alpn_callback o = Ret (0, InServer 1, 2, negotiated) /\ name_at (InServer 1) 2 o = str "h2" /\
    (negotiated = true <-> In (str "h2") names).
Proof.
  intros names o (Hne & Hn & ->). unfold alpn_callback. cbn [supported_protos length select_next_proto].
  destruct (offered_spec (firstn (Z.to_nat 2) [104; 50]) names (length (wire names)) Hn (names_length _ Hn)) as (x & -> & Hx).
  exists x. change (firstn (Z.to_nat 2) [104; 50]) with (str "h2") in Hx. split; [|split; [reflexivity|exact Hx]].
  destruct x; [reflexivity|]. cbn [obind].
  change (skipn (Z.to_nat 2) [104; 50]) with (@nil Z). cbn [select_next_proto]. destruct names as [|n names]; [easy|]. reflexivity.
Qed.
Print Assumptions C68_alpn.
Example C68_case : offer [str "http/1.1"; str "h2"] (8 :: str "http/1.1" ++ 2 :: str "h2").
Proof. split; [discriminate|]. split; [repeat constructor; cbn; lia|reflexivity]. Qed.

(** ** C107.  False: a client that does not offer h2 is told that it is chosen, instead of
    being refused (RFC 7301, 3.2). *)
Theorem C107_offered_refuted : forall names o, offer names o -> ~ In (str "h2") names ->
  exists p n, alpn_callback o = Ret (0, p, n, false) /\ ~ In (name_at p n o) names.
Proof.
  intros names o Ho Hn. destruct (C68_alpn names o Ho) as (b & E & Ea & Hb). exists (InServer 1), 2.
  destruct b; [exfalso; now apply Hn, Hb|]. split; [exact E|]. now rewrite Ea.
Qed.
Print Assumptions C107_offered_refuted.
Example C107_case : offer [str "http/1.1"] (8 :: str "http/1.1") /\ ~ In (str "h2") [str "http/1.1"].
Proof. split; [split; [discriminate|]; split; [repeat constructor; cbn; lia|reflexivity]|]. intros [E|[]]. discriminate E. Qed.
(** Others get what they offered. *)
Theorem C107_offered_partial : forall names o, offer names o -> In (str "h2") names ->
  exists p n, alpn_callback o = Ret (0, p, n, true) /\ In (name_at p n o) names.
Proof.
  intros names o Ho Hn. destruct (C68_alpn names o Ho) as (b & E & Ea & Hb). exists (InServer 1), 2.
  rewrite (proj2 Hb Hn) in E. split; [exact E|]. now rewrite Ea.
Qed.
Print Assumptions C107_offered_partial.
