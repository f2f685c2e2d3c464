(** Fields the response header encoder refers to wrongly are not received as sent. *)
From Verif Require Import Base BaseLemmas SpecInt IntCodec IntProofs SpecHuffman Huffman HuffmanProofs
  SpecTable DynTable DynTableProofs StaticTable SpecHpack HpackLemmas HpackDec HpackDecProofs HpackEnc SpecHpackEnc HpackEncProofs.

Lemma low_bits n k : 0 <= k -> Z.lor n (2 ^ k) mod 2 ^ k = n mod 2 ^ k.
Proof.
  intros Hk. apply Z.bits_inj'. intros i Hi.
  destruct (Z.lt_ge_cases i k).
  - rewrite !Z.mod_pow2_bits_low, Z.lor_spec, Z.pow2_bits_false by lia. now rewrite orb_false_r.
  - now rewrite !Z.mod_pow2_bits_high by lia.
Qed.

(** The octet of an indexed field. *)
Lemma indexed_octet n : 128 <= u8 (Z.lor n 128) < 256 /\ u8 (Z.lor n 128) mod 128 = n mod 128.
Proof.
  assert (T : Z.testbit (Z.lor n 128) 7 = true) by (rewrite Z.lor_spec; change 128 with (2 ^ 7); now rewrite Z.pow2_bits_true, orb_true_r by lia).
  unfold u8. pose proof (Z.mod_pos_bound (Z.lor n 128) 256). 
  assert (T' : Z.testbit (Z.lor n 128 mod 2 ^ 8) 7 = true) by (rewrite Z.mod_pow2_bits_low by lia; exact T).
  change (2 ^ 8) with 256 in T'. set (m := Z.lor n 128 mod 256) in *.
  split.
  - split; [|lia]. destruct (Z.lt_ge_cases m 128) as [L|]; [|lia].
    assert (m = 0 \/ 0 < m) as [E|P] by lia; [rewrite E in T'; now rewrite Z.testbit_0_l in T'|].
    rewrite Z.bits_above_log2 in T'; [easy|lia|]. apply Z.log2_lt_pow2; [lia|]. change (2 ^ 7) with 128. lia.
  - unfold m. pose proof (low_bits n 7 ltac:(lia)) as Q. change (2 ^ 7) with 128 in Q. rewrite <- Q.
    rewrite <- Znumtheory.Zmod_div_mod; try lia. exists 2. lia.
Qed.

(** The octet of a literal whose name is an entry. *)
Lemma literal_octet n : u8 (Z.lor n 64) mod 64 = n mod 64 /\
  (n mod 256 < 128 -> 64 <= u8 (Z.lor n 64) < 128) /\
  (128 <= n mod 256 -> 192 <= u8 (Z.lor n 64) < 256).
Proof.
  split; [|].
  { unfold u8. pose proof (low_bits n 6 ltac:(lia)) as Q. change (2 ^ 6) with 64 in Q. rewrite <- Q.
    rewrite <- Znumtheory.Zmod_div_mod; try lia. exists 4. lia. }
  assert (E : u8 (Z.lor n 64) = Z.lor (n mod 256) 64).
  { unfold u8. change 256 with (2 ^ 8). apply Z.bits_inj'. intros i Hi.
    destruct (Z.lt_ge_cases i 8).
    - rewrite Z.mod_pow2_bits_low, !Z.lor_spec, Z.mod_pow2_bits_low by lia. reflexivity.
    - rewrite Z.mod_pow2_bits_high, Z.lor_spec, Z.mod_pow2_bits_high by lia.
      change 64 with (2 ^ 6). rewrite Z.pow2_bits_false by lia. reflexivity. }
  rewrite E. pose proof (Z.mod_pos_bound n 256). set (m := n mod 256) in *.
  assert (A : forallb (fun k => let b := Z.lor (Z.of_nat k) 64 in
    if Z.of_nat k <? 128 then (64 <=? b) && (b <? 128) else (192 <=? b) && (b <? 256)) (seq 0 256) = true)
    by (vm_compute; reflexivity).
  rewrite forallb_forall in A. specialize (A (Z.to_nat m)).
  rewrite in_seq, Z2Nat.id in A by lia. cbv zeta in A.
  assert (A' := A ltac:(lia)). clear A.
  destruct (m <? 128) eqn:L; lia.
Qed.

(** What an encoded field, and what a sequence of them, can start with. *)
Lemma encoded_start cs t l M h bs t' : dt_rep t l M -> header_ok cs h ->
  encode_header cs t h = Ret (bs, t') ->
  exists b r, bs = b :: r /\ (64 <= b < 128 \/ 192 <= b < 256 \/ (128 <= b < 256 /\ r = [])).
Proof.
  intros R Hok. unfold encode_header.
  destruct (dt_insert_rep t l M h R (header_ok_sane _ _ Hok)) as (t1 & -> & R1).
  destruct Hok as [Hn Hv].
  destruct (write_string_spec cs 0 _ Hv) as (vb & -> & _).
  destruct (write_string_spec cs 0 _ Hn) as (nb & -> & _).
  assert (A : forall n, 64 <= u8 (Z.lor n 64) < 128 \/ 192 <= u8 (Z.lor n 64) < 256).
  { intros n. destruct (literal_octet n) as (_ & H1 & H2).
    destruct (Z.lt_ge_cases (n mod 256) 128) as [L|G]; [specialize (H1 L)|specialize (H2 G)]; lia. }
  generalize (lenZ STATIC_TABLE). intros K.
  repeat match goal with |- context [match ?e with Some _ => _ | None => _ end] => destruct e end;
    cbn [obind]; intros E; inversion E; subst; do 2 eexists; (split; [reflexivity|]).
  - pose proof (indexed_octet (z + 1)). right; right. split; [lia|auto].
  - pose proof (indexed_octet (K + z + 1)). right; right. split; [lia|auto].
  - destruct (A (z + 1)); auto.
  - destruct (A (K + z + 1)); auto.
  - lia.
Qed.

Inductive starts : bytes -> Prop :=
| starts_nil : starts []
| starts_literal : forall b r, 64 <= b < 128 \/ 192 <= b < 256 -> starts (b :: r)
| starts_indexed : forall b r, 128 <= b < 256 -> starts r -> starts (b :: r).

Lemma block_start cs M hs : forall t l bs t', dt_rep t l M -> Forall (header_ok cs) hs ->
  hpack_encode cs t hs = Ret (bs, t') -> starts bs.
Proof.
  induction hs as [|h hs IH]; intros t l bs t' R Hok E; cbn [hpack_encode] in E.
  - inversion E; subst. constructor.
  - inversion Hok as [|? ? Hh Hhs]; subst.
    destruct (encode_header cs t h) as [[b1 t1]| | |] eqn:E1; try easy. cbn [obind] in E.
    destruct (hpack_encode cs t1 hs) as [[b2 t2]| | |] eqn:E2; try easy. cbn [obind] in E.
    inversion E; subst.
    destruct (encode_header_rep cs t l M h b1 t1 R Hh E1) as (l1 & R1).
    pose proof (IH _ _ _ _ R1 Hhs E2) as N.
    destruct (encoded_start cs t l M h b1 t1 R Hh E1) as (b & r & -> & [Hb|[Hb|[Hb ->]]]); cbn [app].
    + apply starts_literal; auto.
    + apply starts_literal; auto.
    + now apply starts_indexed.
Qed.

Lemma starts_int bs w rest : cont_val bs w -> starts (bs ++ rest) -> 64 <= w.
Proof.
  induction 1 as [b Hb|b bs v Hb Hc IH]; intros Hs; inversion Hs as [|? ? Hr|? ? Hb' Hr]; subst.
  - lia.
  - lia.
  - assert (0 <= v) by (clear - Hc; induction Hc; lia). lia.
  - specialize (IH Hr). lia.
Qed.

Lemma entry_place l v h : table_entry l v = Some h -> ~ In h rfc_static ->
  exists j, v = 62 + Z.of_nat j /\ nth_error l j = Some h.
Proof.
  unfold table_entry. intros E NS. destruct (1 <=? v) eqn:L; [|easy].
  destruct (lt_dec (Z.to_nat (v - 1)) 61) as [Q|Q].
  - rewrite nth_error_app1 in E by exact Q. exfalso. apply NS. eapply nth_error_In; eauto.
  - rewrite nth_error_app2 in E by (change (length rfc_static) with 61%nat; lia).
    change (length rfc_static) with 61%nat in E.
    exists (Z.to_nat (v - 1) - 61)%nat. split; [lia|exact E].
Qed.

Lemma name_place l v h n : table_entry l v = Some h -> h_name h = n -> ~ static_name n ->
  exists j, v = 62 + Z.of_nat j /\ nth_error l j = Some h.
Proof.
  intros E <- NS. apply entry_place; [exact E|]. intros H. apply NS. now exists h.
Qed.

Lemma cont_first bs w : cont_val bs w -> exists b r, bs = b :: r /\ 0 <= b < 256 /\ 0 <= w /\
  ((b < 128 /\ r = [] /\ w = b) \/ (128 <= b /\ exists v, cont_val r v /\ w = b - 128 + 128 * v)).
Proof.
  induction 1 as [b Hb|b bs v Hb Hc IH].
  - exists b, []. repeat split; try lia. left. auto with zarith.
  - destruct IH as (b' & r' & -> & ? & Hv & _). exists b, (b' :: r'). repeat split; try lia.
    right. split; [lia|]. exists v. split; auto.
Qed.

Lemma places_below l M t i h : dt_rep t l M -> M <= 65536 -> nth_error l i = Some h -> (i < 2048)%nat.
Proof.
  intros (_ & _ & _ & _ & Hs) HM E. pose proof (table_size_count l).
  assert (i < length l)%nat by (apply nth_error_Some; congruence). unfold lenZ in *. lia.
Qed.

(** An entry of a client's table that has only the newest entries. *)
Lemma front_nth m l j (x : header) : nth_error (fit m l) j = Some x -> nth_error l j = Some x.
Proof. destruct (fit_prefix l m) as (e & E). intros H. rewrite E, nth_error_app1; [exact H|]. apply nth_error_Some. congruence. Qed.

(** An indexed field. *)
Lemma lost_indexed P l k m i h b more used rest hs st' :
  (forall j x, nth_error k j = Some x -> nth_error l j = Some x) -> NoDup l -> (i < 2048)%nat -> ~ In h rfc_static -> newest_at (eq h) l i -> (65 <= i)%nat ->
  b = u8 (Z.lor (62 + Z.of_nat i) 128) -> starts more ->
  b :: more = used ++ rest -> rfc_repr P (k, m) used hs st' -> exists h', hs = [h'] /\ h' <> h.
Proof.
  intros Ekl Hnd Hi NS [(x & Hx & ->) Hfirst] H65 Eb Hmore E H.
  destruct (indexed_octet (62 + Z.of_nat i)) as [B1 B2]. rewrite <- Eb in B1, B2. clear Eb.
  inversion H as [d mx f rr v g Hf [Hv _] Hte|d mx f rr n vb v Hf Hn Hv
                  |d mx f rr n vb v Hf Hn Hv|d mx f rr n Hf Hv Hl]; subst;
    assert (f = b) by (cbn in E; now injection E); subst f; try lia.
  exists g. split; [reflexivity|]. intros ->.
  destruct (entry_place _ _ _ Hte NS) as (j & -> & Hj). apply Ekl in Hj.
  assert (j = i) by (eapply (proj1 (NoDup_nth_error l) Hnd); [apply nth_error_Some; congruence|congruence]).
  subst j. remember (62 + Z.of_nat i) as n eqn:En. inversion Hv as [b0 Hb0 Hlt|b0 bs w Hb0 Heq Hw]; subst b0.
  - change (2 ^ 7) with 128 in *. lia.
  - change (2 ^ 7) with 128 in *. injection E as E. subst more.
    subst rr. destruct (cont_first _ _ Hw) as (c & r & -> & Hc & _ & [(C1 & -> & ->)|(C1 & v & Hv1 & ->)]);
      cbn [app] in Hmore.
    + inversion Hmore; subst; lia.
    + destruct (Z.eq_dec c 128) as [->|Nc]; [|lia].
      inversion Hmore as [|? ? Hr|? ? Hb' Hr]; subst; [lia|].
      pose proof (starts_int _ _ _ Hv1 Hr). lia.
Qed.

(** The first octet of a string's length says whether it is empty. *)
Lemma string_first limit vb v : rfc_string (rfc_profile limit) vb v -> v <> [] ->
  exists b r, vb = b :: r /\ b <> 0 /\ b <> 128.
Proof.
  intros [b ib s [Hi _] Hb _ _|b ib p s [Hi _] Hb _ Hs Hh _] Hne; cbn [app]; do 2 eexists;
    (split; [reflexivity|]).
  - split; [|lia]. intros ->. inversion Hi as [? ? ? El|? ? ? ? F]; [|now vm_compute in F].
    destruct s; [easy|]. rewrite lenZ_cons in H2. pose proof (lenZ_nonneg s). change (0 mod 2 ^ 7) with 0 in H2. lia.
  - split; [lia|]. intros ->. cbn [p_huff rfc_profile] in Hh.
    assert (p = []).
    { inversion Hi as [? ? ? El|? ? ? ? F]; [|now vm_compute in F].
      destruct p; [easy|]. rewrite lenZ_cons in H2. pose proof (lenZ_nonneg p). change (128 mod 2 ^ 7) with 0 in H2. lia. }
    subst p. destruct Hh as (pad & Eb & _). pose proof (huff_bits_len s Hs) as Q.
    apply (f_equal (@length bool)) in Eb. rewrite app_length in Eb. cbn in Eb.
    destruct s; [easy|]. cbn [length] in Q. lia.
Qed.

(** A literal whose name is an entry other than the newest. *)
Lemma lost_named limit l l' m i h b vb more used rest hs st' :
  (forall j x, nth_error l' j = Some x -> nth_error l j = Some x) -> ~ In h rfc_static -> ~ In h l -> ~ static_name (h_name h) ->
  newest_at (fun x => h_name x = h_name h) l i -> (1 <= i)%nat ->
  (let index := 62 + Z.of_nat i in
    128 <= index mod 256 \/ 1 <= index mod 64 <= 62 \/
    (index mod 64 = 0 /\ h_value h <> h_name h) \/
    (index = 63 /\ h_value h <> [] /\
     forall j x, nth_error l j = Some x -> h_name x = h_name h -> j = 1%nat)) ->
  b = u8 (Z.lor (62 + Z.of_nat i) 64) -> rfc_string (rfc_profile limit) vb (h_value h) ->
  b :: vb ++ more = used ++ rest -> rfc_repr (rfc_profile limit) (l', m) used hs st' ->
  exists h', hs = [h'] /\ h' <> h.
Proof.
  intros Ekl NS NI NN [_ Hfirst] Hi. cbv zeta. remember (62 + Z.of_nat i) as n eqn:En. intros Hn Eb Hvb E H.
  destruct (literal_octet n) as (B1 & B2 & B3). rewrite <- Eb in B1, B2, B3. clear Eb.
  destruct (Z.lt_ge_cases (n mod 256) 128) as [L|G]; [clear B3; specialize (B2 L)|clear B2; specialize (B3 G)].
  - inversion H as [d mx f rr v g Hf [Hv _] Hte|d mx f rr nm vb' v Hf Hnm Hv
                  |d mx f rr nm vb' v Hf Hnm Hv|d mx f rr nm Hf Hv Hl]; subst d mx;
      assert (f = b) by (subst used; cbn in E; now injection E); subst f; try lia.
    subst hs used. exists (Hdr nm v). split; [reflexivity|]. intros Eh. subst h. cbn [h_name h_value] in *.
    rewrite <- app_assoc in E.
    inversion Hnm as [ib v0 g [Hv0 _] Hz Hte E1 E2|ib sb s [Hv0 _] Hs E1 E2].
    + destruct (name_place _ _ _ _ Hte E2 NN) as (j & -> & Hj). apply Ekl in Hj.
      assert (i <= j)%nat by (destruct (le_lt_dec i j); [assumption|exfalso; eapply Hfirst; eauto]).
      remember (62 + Z.of_nat j) as k eqn:Ek. subst ib.
      inversion Hv0 as [b0 Hb0 Hlt|b0 bs w Hb0 Heq Hw]; subst b0; change (2 ^ 6) with 64 in *; [lia|].
      destruct Hn as [?|[?|[?|(N63 & Hne & Huniq)]]]; try lia.
      destruct (string_first _ _ _ Hvb Hne) as (c0 & r0 & -> & Hc0 & Hc128).
      subst bs. cbn [app] in E. injection E as E.
      destruct (cont_first _ _ Hw) as (c & r & -> & Hc & _ & Hcw). cbn [app] in E.
      injection E as <- _. specialize (Huniq _ _ Hj E2).
      destruct Hcw as [(C1 & -> & ->)|(C1 & w' & Hw' & ->)]; [lia|].
      assert (0 <= w') by (clear - Hw'; induction Hw'; lia). lia.
    + rewrite <- E1 in E. rewrite <- app_assoc in E.
      assert (Hib : exists r, ib = b :: r).
      { inversion Hv0; subst ib; cbn [app] in E; injection E as <- _; eauto. }
      destruct Hib as (r & ->). remember 0 as z eqn:Ez in Hv0. inversion Hv0 as [b0 Hb0 Hlt E0 E3|b0 bs w Hb0 Heq Hw E0 E3]; subst b0;
        change (2 ^ 6) with 64 in *.
      * subst r. cbn [app] in E. injection E as E.
        destruct (string_det _ (rfc_profile_functional limit) _ _ Hvb _ _ _ _ Hs E) as (_ & Es & _).
        destruct Hn as [?|[?|[[_ Hd]|?]]]; try lia. congruence.
      * assert (0 <= w) by (clear - Hw; induction Hw; lia). lia.
  - inversion H as [d mx f rr v g Hf [Hv _] Hte|d mx f rr nm vb' v Hf Hnm Hv
                  |d mx f rr nm vb' v Hf Hnm Hv|d mx f rr nm Hf Hv Hl]; subst d mx;
      assert (f = b) by (subst used; cbn in E; now injection E); subst f; try lia.
    exists g. split; [reflexivity|]. intros ->.
    destruct (entry_place _ _ _ Hte NS) as (j & _ & Hj). apply Ekl in Hj. apply NI. eapply nth_error_In; eauto.
Qed.

(** One field. *)
Lemma lost_header cs t l M h bs t' : dt_rep t l M -> M <= 65536 -> NoDup l -> header_ok cs h ->
  lost_field l h -> encode_header cs t h = Ret (bs, t') ->
  forall limit m more used rest hs st', starts more -> bs ++ more = used ++ rest ->
    rfc_repr (rfc_profile limit) (fit m l, m) used hs st' -> exists h', hs = [h'] /\ h' <> h.
Proof.
  intros R HM Hnd Hok [NS Hl] E limit m more used rest hs st' Hmore Eu H.
  pose proof R as (Etab & _). assert (Efit : forall j x, nth_error (fit m l) j = Some x -> nth_error l j = Some x) by apply front_nth. unfold encode_header in E.
  pose proof (header_ok_sane _ _ Hok) as Hsane. destruct Hok as [Hn Hv].
  destruct (find_index _ STATIC_TABLE) as [i|] eqn:E1.
  { exfalso. apply NS. apply static_index_lt in E1 as (Hi & x & Hx & Hp).
    apply andb_prop in Hp as [P1 P2]. apply bytes_eqb_eq in P1, P2.
    assert (x = h) by (destruct x, h; cbn in *; congruence). subst x. eapply nth_error_In; eauto. }
  clear E1. pose proof (dt_find_spec t h) as F. rewrite Etab in F.
  destruct (dt_find t h) as [i|].
  { destruct F as (Hi & Hnth & Hmin).
    destruct Hl as [(k & Hk & Hk65)|(NI & _)]; [|exfalso; apply NI; eapply nth_error_In; eauto].
    assert (Ei : i = Z.of_nat k).
    { destruct Hk as [(x & Hx & ->) _].
      assert (k = Z.to_nat i); [|lia].
      apply (proj1 (NoDup_nth_error l) Hnd); [apply nth_error_Some; congruence|congruence]. }
    assert (Ebs : bs = [u8 (Z.lor (lenZ STATIC_TABLE + i + 1) 128)]) by congruence. subst bs.
    change (lenZ STATIC_TABLE) with 61 in Eu. cbn [app] in Eu.
    replace (61 + i + 1) with (62 + Z.of_nat k) in Eu by lia.
    assert (Hk2 : (k < 2048)%nat).
    { apply (places_below l M t k h R HM). rewrite <- Hnth. f_equal. lia. }
    exact (lost_indexed _ l _ m k h _ more used rest hs st' Efit Hnd Hk2 NS Hk Hk65 eq_refl Hmore Eu H). }
  destruct Hl as [(k & [(x & Hx & ->) _] & _)|(_ & NN & k & Hk & Hk1 & Hcond)].
  { exfalso. apply F. eapply nth_error_In; eauto. }
  destruct (find_index _ STATIC_TABLE) as [i|] eqn:E2.
  { exfalso. apply NN. apply static_index_lt in E2 as (Hi & x & Hx & Hp). apply bytes_eqb_eq in Hp.
    exists x. split; [eapply nth_error_In; eauto|assumption]. }
  clear E2. pose proof (dt_find_name_spec t (h_name h)) as G. rewrite Etab in G.
  destruct (dt_find_name t (h_name h)) as [i|].
  2: { exfalso. destruct Hk as [(x & Hx & Hxn) _]. eapply G; [eapply nth_error_In; eauto|exact Hxn]. }
  destruct G as (Hi & (x & Hx & Hxn) & Hmin).
  assert (Ei : i = Z.of_nat k).
  { destruct Hk as [(y & Hy & Hyn) Hfirst].
    destruct (lt_eq_lt_dec k (Z.to_nat i)) as [[L|Q]|L]; [|lia|].
    - exfalso. eapply Hmin; eauto.
    - exfalso. eapply Hfirst; eauto. }
  destruct (write_string_spec cs limit _ Hv) as (vb & Evb & Hvb).
  destruct (dt_insert_rep t l M h R Hsane) as (t1 & Eins & _).
  rewrite Evb, Eins in E. cbn [obind] in E.
  assert (Ebs : bs = u8 (Z.lor (lenZ STATIC_TABLE + i + 1) 64) :: vb) by congruence. subst bs.
  change (lenZ STATIC_TABLE) with 61 in Eu. cbn [app] in Eu.
  replace (61 + i + 1) with (62 + Z.of_nat k) in Eu by lia.
  eapply lost_named with (i := k) (vb := vb); eauto.
  eapply string_le; [apply enc_profile_rfc|exact Hvb].
Qed.

Lemma after_fields_nodup M hs : forall l, NoDup l -> NoDup (after_fields M l hs).
Proof.
  induction hs as [|h hs IH]; intros l Hl; [exact Hl|]. cbn. apply IH.
  eapply (after_field_inv M (h :: l)); auto; [now right|now left].
Qed.

Lemma hpack_encode_app cs a b : forall t bs t', hpack_encode cs t (a ++ b) = Ret (bs, t') ->
  exists ba ta bb, hpack_encode cs t a = Ret (ba, ta) /\ hpack_encode cs ta b = Ret (bb, t') /\ bs = ba ++ bb.
Proof.
  induction a as [|h a IH]; intros t bs t' E; cbn [app hpack_encode] in *.
  - exists [], t, bs. auto.
  - destruct (encode_header cs t h) as [[b1 t1]| | |]; try easy. cbn [obind] in *.
    destruct (hpack_encode cs t1 (a ++ b)) as [[b2 t2]| | |] eqn:E2; try easy. cbn [obind] in E.
    inversion E; subst. destruct (IH _ _ _ E2) as (ba & ta & bb & -> & Eb & ->). cbn [obind].
    exists (b1 ++ ba), ta, bb. rewrite app_assoc. auto.
Qed.

Lemma encode_seq_app cs a b : forall t bs t', encode_seq cs t (a ++ b) = Ret (bs, t') ->
  exists ba ta bb, encode_seq cs t a = Ret (ba, ta) /\ encode_seq cs ta b = Ret (bb, t') /\ bs = ba ++ bb.
Proof.
  induction a as [|h a IH]; intros t bs t' E; cbn [app encode_seq] in *.
  - exists [], t, bs. auto.
  - destruct (hpack_encode cs t h) as [[b1 t1]| | |]; try easy. cbn [obind] in *.
    destruct (encode_seq cs t1 (a ++ b)) as [[b2 t2]| | |] eqn:E2; try easy. cbn [obind] in E.
    inversion E; subst. destruct (IH _ _ _ E2) as (ba & ta & bb & -> & Eb & ->). cbn [obind].
    exists (b1 :: ba), ta, bb. auto.
Qed.

(** What follows a part of a block that was read. *)
Lemma block_rest P (HP : huff_functional P) st a ha sta : rfc_block P st a ha sta ->
  forall b hs st', rfc_block P st (a ++ b) hs st' -> exists hb, hs = ha ++ hb /\ rfc_block P sta b hb st'.
Proof.
  induction 1 as [st|st bs hs st1 bs2 hs2 st2 Hr Hb IH]; intros b hs' st' H'; [exists hs'; auto|].
  destruct (block_inv _ _ _ _ _ H') as [(E1 & E2 & E3)|(a & ha & sta & c & hc & E1 & E2 & Ha & Hc)].
  - apply app_eq_nil in E1 as [E1 _]. apply app_eq_nil in E1 as [-> _].
    apply repr_nonempty in Hr as (? & ? & ? & _). easy.
  - rewrite <- app_assoc in E1.
    destruct (repr_det _ HP _ _ _ _ Ha _ _ _ _ _ Hr (eq_sym E1)) as (-> & -> & -> & ->).
    destruct (IH _ _ _ Hc) as (hb & -> & Hb'). exists hb. subst hs'. rewrite app_assoc. auto.
Qed.
