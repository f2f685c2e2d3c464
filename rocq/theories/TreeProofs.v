(** HuffmanTree with any codes. *)
From Verif Require Import Base BaseLemmas Huffman SpecHuffman HuffmanProofs SpecTree.

Fixpoint node (t : tree) (bits : list bool) {struct bits} : tree :=
  match bits with
  | [] => t
  | b :: bits' => match t with Null => Null | Node l r _ => node (if b then r else l) bits' end
  end.
Definition symbol (t : tree) : option Z := match t with Node _ _ s => s | Null => None end.
Lemma node_null bits : node Null bits = Null.
Proof. now destruct bits. Qed.
Lemma node_app a : forall t b, node t (a ++ b) = node (node t a) b.
Proof.
  induction a as [|x a IH]; intros t b; [reflexivity|]. cbn [Datatypes.app node]. destruct t; [now rewrite node_null|apply IH].
Qed.
Lemma starts_nil c : starts [] c.
Proof. now exists c. Qed.
Lemma starts_cons b x b' c : starts (b :: x) (b' :: c) <-> b = b' /\ starts x c.
Proof. split; [intros (y & [= -> ->]); split; [reflexivity|now exists y]|intros (-> & y & ->); now exists y]. Qed.
Lemma starts_trans x y z : starts x y -> starts y z -> starts x z.
Proof. intros (a & ->) (b & ->). exists (a ++ b). symmetry. apply app_assoc. Qed.
Lemma starts_length x y : starts x y -> (length x <= length y)%nat.
Proof. intros (a & ->). rewrite app_length. lia. Qed.
(** Two starts of one string. *)
Lemma starts_two x y z : starts x z -> starts y z -> starts x y \/ starts y x.
Proof.
  revert y z. induction x as [|b x IH]; intros y z Hx Hy; [left; apply starts_nil|]. destruct y as [|b' y]; [right; apply starts_nil|].
  destruct z as [|b0 z]; [destruct Hx as (? & [=])|]. apply starts_cons in Hx as [-> Hx]. apply starts_cons in Hy as [-> Hy].
  destruct (IH y z Hx Hy); [left|right]; now apply starts_cons.
Qed.

(** ** Insertion *)
Definition changed (t t' : tree) (path : list bool) (s : Z) : Prop :=
  (forall bits, symbol (node t' bits) = if bools_eqb bits path then Some s else symbol (node t bits)) /\
  (forall bits, node t' bits = Null <-> node t bits = Null /\ ~ starts bits path).
Lemma bools_eqb_refl l : bools_eqb l l = true.
Proof. now apply bools_eqb_eq. Qed.
Lemma insert_at_cases n sym code : forall t,
  match symbol (node t (msb_bits n code)) with
  | Some _ => insert_at n sym code t = Throw
  | None => exists t', insert_at n sym code t = Ret t' /\ changed t t' (msb_bits n code) (u8 sym)
  end.
Proof.
  induction n as [|n IH]; intros t.
  - cbn [msb_bits node insert_at]. destruct t as [|l r [s|]]; cbn [symbol]; [|reflexivity|].
    + eexists. split; [reflexivity|]. split; intros [|b bits]; cbn [node bools_eqb symbol]; [reflexivity|destruct b; now rewrite node_null| |].
      * split; [discriminate|]. intros [_ H]. destruct H. apply starts_nil.
      * split; [intros _; split; [reflexivity|intros (y & [=])]|intros _; destruct b; apply node_null].
    + eexists. split; [reflexivity|]. split; intros [|b bits]; cbn [node bools_eqb symbol]; [reflexivity|reflexivity| |].
      * split; [discriminate|intros [? _]; discriminate].
      * split; [intros H; split; [exact H|intros (y & [=])]|now intros [? _]].
  - cbn [insert_at]. rewrite (testbit_land code (Z.of_nat n)) by lia. cbn [msb_bits node].
    set (b := Z.testbit code (Z.of_nat n)). set (lr := match t with Null => (Null, Null, None) | Node l r s => (l, r, s) end).
    destruct lr as [[l r] s] eqn:E. subst lr.
    assert (ET : match t with Null => Null | Node l r _ => node (if b then r else l) (msb_bits n code) end = node (if b then r else l) (msb_bits n code)).
    { destruct t; injection E as <- <- <-; [destruct b; symmetry; apply node_null|reflexivity]. }
    rewrite ET. specialize (IH (if b then r else l)). destruct (symbol (node (if b then r else l) (msb_bits n code))).
    { destruct b; rewrite IH; reflexivity. }
    destruct IH as (t1 & E1 & C1 & C2).
    exists (if b then Node l t1 s else Node t1 r s). split; [destruct b; rewrite E1; reflexivity|].
    assert (EN : forall b' bits, node t (b' :: bits) = node (if b' then r else l) bits).
    { intros b' bits. cbn [node]. destruct t; injection E as <- <- <-; [destruct b'; symmetry; apply node_null|reflexivity]. }
    assert (ES : symbol t = s) by (destruct t; injection E as <- <- <-; reflexivity).
    assert (EM : forall b' bits, node (if b then Node l t1 s else Node t1 r s) (b' :: bits) =
      if Bool.eqb b' b then node t1 bits else node (if b' then r else l) bits).
    { intros b' bits. cbn [node]. destruct b, b'; reflexivity. }
    split.
    + intros [|b' bits].
      * cbn [node bools_eqb]. rewrite ES. now destruct b.
      * rewrite EM, EN. cbn [bools_eqb]. destruct (Bool.eqb_spec b' b) as [->|N]; [cbn; apply C1|reflexivity].
    + intros [|b' bits].
      * cbn [node]. split; [destruct b; discriminate|]. intros [_ H]. destruct H. apply starts_nil.
      * rewrite EM, EN, starts_cons. destruct (Bool.eqb_spec b' b) as [->|N]; [rewrite C2; intuition|intuition].
Qed.

(** What was inserted. *)
Record holds (L : codes) (t : tree) : Prop := {
  ho_symbol : forall bits s, symbol (node t bits) = Some s <-> In (bits, s) L;
  ho_null : forall bits, node t bits = Null <-> bits <> [] /\ forall c s, In (c, s) L -> ~ starts bits c;
  ho_nonempty : forall c s, In (c, s) L -> c <> [] }.
Lemma holds_empty : holds [] (Node Null Null None).
Proof.
  split; [|intros bits|intros c s []].
  - intros [|b bits] s; cbn; [|destruct b; rewrite node_null]; easy.
  - destruct bits as [|b bits]; cbn; [easy|]. destruct b; rewrite node_null; repeat split; easy.
Qed.
Lemma holds_insert L t sym code len : holds L t -> 0 <= len < 256 ->
  match insert_symbol t sym code len with
  | Ret t' => 1 <= len <= 31 /\ (forall s, ~ In (msb_bits (Z.to_nat len) code, s) L) /\ holds (L ++ [(msb_bits (Z.to_nat len) code, u8 sym)]) t'
  | Throw => len = 0 \/ 31 < len \/ exists s, In (msb_bits (Z.to_nat len) code, s) L
  | _ => False
  end.
Proof.
  intros [H1 H2 H3] Hl. unfold insert_symbol. destruct (Z.eqb_spec len 0) as [->|N]; cbn [orb]; [now left|].
  destruct (Z.gtb_spec len 31) as [G|G]; [right; left; lia|]. set (path := msb_bits (Z.to_nat len) code).
  pose proof (insert_at_cases (Z.to_nat len) sym code t) as K. fold path in K. destruct (symbol (node t path)) as [s|] eqn:E.
  - rewrite K. right. right. exists s. now apply H1.
  - destruct K as (t' & -> & C1 & C2). split; [lia|]. split; [intros s Hs; apply H1 in Hs; congruence|].
    assert (Np : path <> []).
    { intros Hp. apply (f_equal (@length bool)) in Hp. unfold path in Hp. rewrite msb_bits_length in Hp. cbn in Hp. lia. }
    split.
    + intros bits s. rewrite C1, in_app_iff. cbn [In]. destruct (bools_eqb bits path) eqn:Eb.
      * apply bools_eqb_eq in Eb as ->. split; [intros [= ->]; auto|]. intros [Hs|[[= ->]|[]]]; [|reflexivity]. apply H1 in Hs. congruence.
      * rewrite H1. split; [auto|]. intros [Hs|[[= <- _]|[]]]; [exact Hs|]. now rewrite bools_eqb_refl in Eb.
    + intros bits. rewrite C2, H2. split.
      * intros [[Hb Hc] Hp]. split; [exact Hb|]. intros c s Hin. apply in_app_iff in Hin as [Hin|[[= <- _]|[]]]; [now apply (Hc c s)|exact Hp].
      * intros [Hb Hc]. split; [split; [exact Hb|]|]; [intros c s Hin; apply (Hc c s); apply in_app_iff; auto|].
        apply (Hc path (u8 sym)). apply in_app_iff. cbn. auto.
    + intros c s Hin. apply in_app_iff in Hin as [Hin|[[= <- _]|[]]]; [now apply (H3 c s)|exact Np].
Qed.

(** ** Decoding *)
Section Decode.
  Variable L : codes.
  Variable root : tree.
  Hypothesis H : holds L root.

  Lemma live_start x y : starts x y -> node root y <> Null -> node root x <> Null.
  Proof. intros (z & ->) Hn E. apply Hn. now rewrite node_app, E, node_null. Qed.
  Lemma dead_no_code x c s : node root x = Null -> In (c, s) L -> ~ starts x c.
  Proof. intros E. now apply (proj2 (proj1 (ho_null _ _ H x) E)). Qed.
  Lemma live_code x : node root x <> Null -> x = [] \/ exists c s, In (c, s) L /\ starts x c.
  Proof.
    intros Hn. destruct x as [|b x]; [now left|right].
    destruct (Exists_dec (fun cs => starts (b :: x) (fst cs)) L) as [E|E].
    - intros [c s]. cbn. clear. revert c. generalize (b :: x). intros l. induction l as [|a l IH]; intros c; [left; apply starts_nil|].
      destruct c as [|a' c]; [right; intros (y & [=])|]. destruct (Bool.bool_dec a a') as [->|N].
      + destruct (IH c); [left; now apply starts_cons|right; rewrite starts_cons; tauto].
      + right. rewrite starts_cons. tauto.
    - apply Exists_exists in E as ([c s] & Hin & Hs). now exists c, s.
    - exfalso. apply Hn. apply (ho_null _ _ H). split; [discriminate|]. intros c s Hin Hs. apply E. apply Exists_exists. now exists (c, s).
  Qed.

  (** No stray bit in a string that can become a code; only one in others. *)
  Lemma live_no_stray x rest : node root x <> Null -> ~ stray L x rest.
  Proof.
    intros Hn (y & b & -> & _ & Hd).
    assert (K : node root (y ++ [b]) <> Null) by (apply (live_start _ (y ++ b :: rest)); [exists rest; now rewrite <- app_assoc|exact Hn]).
    destruct (live_code _ K) as [E|(c & s & Hin & Hs)]; [now destruct y|]. now apply (Hd c s).
  Qed.
  Lemma dead_stray x b rest rest' : node root x <> Null -> node root (x ++ [b]) = Null -> stray L (x ++ b :: rest) rest' <-> rest' = rest.
  Proof.
    intros Hn Hd. split.
    - intros (y & b' & E & Hy & Hd').
      assert (T : starts (y ++ [b']) x \/ starts (x ++ [b]) y \/ y = x).
      { destruct (starts_two x y (x ++ b :: rest)) as [(z & ->)|(z & ->)]; [now exists (b :: rest)|rewrite E; now exists (b' :: rest')| |].
        - rewrite <- app_assoc in E. apply app_inv_head in E. destruct z as [|b0 z]; [right; right; apply app_nil_r|].
          injection E as <- _. right. left. exists z. now rewrite <- app_assoc.
        - rewrite <- app_assoc in E. apply app_inv_head in E. destruct z as [|b0 z]; [right; right; now rewrite app_nil_r|].
          injection E as <- _. left. exists z. now rewrite <- app_assoc. }
      destruct T as [T|[T|T]].
      + exfalso. pose proof (live_start _ _ T Hn) as K. destruct (live_code _ K) as [E'|(c & s & Hin & Hs)]; [now destruct y|]. now apply (Hd' c s).
      + exfalso. destruct Hy as [->|(c & s & Hin & Hs)]; [destruct T as (z & Ez); now destruct x|].
        apply (dead_no_code (x ++ [b]) c s Hd Hin). now apply starts_trans with y.
      + subst y. apply app_inv_head in E. now injection E.
    - intros ->. exists x, b. split; [reflexivity|]. split; [now apply live_code|]. intros c s Hin. exact (dead_no_code _ c s Hd Hin).
  Qed.

  Lemma loop_reads bits : forall x acc, node root x <> Null -> (forall y, starts y x -> symbol (node root y) = None) ->
    exists out tail, reads L (x ++ bits) out tail /\
      ((ignorable L tail /\ huffman_loop root (node root x) bits acc = Ret (Val (rev acc ++ out))) \/
       (~ ignorable L tail /\ huffman_loop root (node root x) bits acc = Ret (Error InvalidCode))).
  Proof.
    induction bits as [|b bits IH]; intros x acc Hn Hx.
    - exists [], x. rewrite app_nil_r. split.
      + apply reads_end. intros c s Hin Hs. apply (ho_symbol _ _ H) in Hin. specialize (Hx c Hs). congruence.
      + left. rewrite app_nil_r. split; [|reflexivity]. intros rest Hs. now apply live_no_stray in Hs.
    - cbn [huffman_loop]. destruct (node root x) as [|l r s0] eqn:E; [easy|].
      assert (EN : (if b then r else l) = node root (x ++ [b])) by (rewrite node_app, E; reflexivity).
      rewrite EN. destruct (node root (x ++ [b])) as [|l1 r1 [s|]] eqn:E1.
      + exists [], (x ++ b :: bits).
        assert (HI : ignorable L (x ++ b :: bits) <-> all_ones bits).
        { split; [intros K; apply K; apply dead_stray; [now rewrite E|exact E1|reflexivity]|].
          intros Ha rest Hs. apply dead_stray in Hs as ->; [exact Ha|now rewrite E|exact E1]. }
        split.
        * apply reads_end. intros c s Hin Hs. pose proof (proj2 (ho_symbol _ _ H c s) Hin) as Hc.
          destruct (starts_two c (x ++ [b]) (x ++ b :: bits)) as [K|K]; [exact Hs|exists bits; now rewrite <- app_assoc| |].
          -- destruct K as (z & Ez). destruct z as [|b' z] using rev_ind; [rewrite app_nil_r in Ez; rewrite <- Ez in Hc; rewrite E1 in Hc; discriminate Hc|].
             rewrite app_assoc in Ez. apply app_inj_tail in Ez as [-> _]. rewrite (Hx c) in Hc; [discriminate|now exists z].
          -- now apply (dead_no_code _ c s E1 Hin).
        * destruct (forallb (fun b => b) bits) eqn:F.
          -- left. rewrite app_nil_r. split; [|reflexivity]. apply HI. now apply all_ones_forallb.
          -- right. split; [|reflexivity]. intros K. apply HI, all_ones_forallb in K. congruence.
      + destruct (IH [] (s :: acc)) as (out & tail & R & D).
        { intros K. apply (ho_null _ _ H) in K as [K _]. easy. }
        { intros y (z & Ey). destruct y; [|discriminate]. destruct (symbol (node root [])) as [s'|] eqn:Es; [|reflexivity].
          apply (ho_symbol _ _ H) in Es. now apply (ho_nonempty _ _ H) in Es. }
        exists (s :: out), tail. split.
        * change (x ++ b :: bits) with (x ++ [b] ++ bits). rewrite app_assoc. apply reads_code; [apply (ho_symbol _ _ H); now rewrite E1| |exact R].
          intros c' s' Hin Hs. destruct (starts_two c' (x ++ [b]) ((x ++ [b]) ++ bits)) as [K|K]; [exact Hs|now exists bits| |exact (starts_length _ _ K)].
          destruct K as (z & Ez). destruct z as [|b' z] using rev_ind; [rewrite app_nil_r in Ez; now rewrite Ez|].
          rewrite app_assoc in Ez. apply app_inj_tail in Ez as [Ez _]. apply (ho_symbol _ _ H) in Hin. rewrite (Hx c') in Hin; [discriminate|now exists z].
        * cbn [node rev] in D. rewrite <- app_assoc in D. exact D.
      + rewrite <- E1. destruct (IH (x ++ [b]) acc) as (out & tail & R & D).
        { now rewrite E1. }
        { intros y (z & Ez). destruct z as [|b' z] using rev_ind; [rewrite app_nil_r in Ez; subst y; now rewrite E1|].
          rewrite app_assoc in Ez. apply app_inj_tail in Ez as [Ez _]. apply Hx. now exists z. }
        exists out, tail. split; [now rewrite <- app_assoc in R|exact D].
  Qed.

  Lemma reads_unique bits out tail : reads L bits out tail -> forall out' tail', reads L bits out' tail' -> out = out' /\ tail = tail'.
  Proof.
    induction 1 as [tail Hn|c s rest out tail Hin Hm R IH]; intros out' tail' R'.
    - inversion R' as [|c s rest o t Hin Hm R Eb]; subst; [auto|]. exfalso. apply (Hn c s Hin). now exists rest.
    - remember (c ++ rest) as bits eqn:Eb. destruct R' as [tail' Hn|c' s' rest' out' tail' Hin' Hm' R'].
      + exfalso. apply (Hn c s Hin). now exists rest.
      + assert (Ec : c = c').
        { assert (T : starts c' (c ++ rest)) by (rewrite <- Eb; now exists rest'). assert (T' : starts c (c' ++ rest')) by (rewrite Eb; now exists rest).
          pose proof (Hm c' s' Hin' ltac:(now exists rest')). pose proof (Hm' c s Hin T'). destruct (starts_two c c' (c ++ rest)) as [(z & ->)|(z & ->)]; [now exists rest|exact T| |];
            rewrite app_length in *; destruct z; [now rewrite app_nil_r|cbn in *; lia|now rewrite app_nil_r|cbn in *; lia]. }
        subst c'. apply app_inv_head in Eb as ->. destruct (IH _ _ R') as [-> ->]. split; [|reflexivity]. f_equal.
        apply (ho_symbol _ _ H) in Hin, Hin'. congruence.
  Qed.
  Lemma decode_any p out tail : reads L (payload_bits p) out tail ->
    (ignorable L tail -> huffman_decode root p = Ret (Val out)) /\ (~ ignorable L tail -> huffman_decode root p = Ret (Error InvalidCode)).
  Proof.
    intros R. unfold huffman_decode. rewrite bit_reader_eq.
    destruct (loop_reads (payload_bits p) [] []) as (out' & tail' & R' & D).
    { intros K. apply (ho_null _ _ H) in K as [K _]. easy. }
    { intros y (z & Ey). destruct y; [|discriminate]. destruct (symbol (node root [])) as [s'|] eqn:Es; [|reflexivity].
      apply (ho_symbol _ _ H) in Es. now apply (ho_nonempty _ _ H) in Es. }
    cbn [Datatypes.app node rev] in R', D. destruct (reads_unique _ _ _ R _ _ R') as [-> ->]. tauto.
  Qed.
  Lemma decode_reads p : exists out tail, reads L (payload_bits p) out tail.
  Proof.
    destruct (loop_reads (payload_bits p) [] []) as (out' & tail' & R' & _).
    { intros K. apply (ho_null _ _ H) in K as [K _]. easy. }
    { intros y (z & Ey). destruct y; [|discriminate]. destruct (symbol (node root [])) as [s'|] eqn:Es; [|reflexivity].
      apply (ho_symbol _ _ H) in Es. now apply (ho_nonempty _ _ H) in Es. }
    now exists out', tail'.
  Qed.
End Decode.
