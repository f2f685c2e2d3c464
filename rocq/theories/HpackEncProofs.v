From Verif Require Import Base BaseLemmas SpecInt IntCodec IntProofs SpecHuffman Huffman HuffmanProofs
  SpecTable DynTable DynTableProofs StaticTable SpecHpack HpackLemmas HpackDec HpackDecProofs HpackEnc SpecHpackEnc.

Lemma init_rep : dt_rep (dt_init DEFAULT_MAX_TABLE_SIZE) [] 65536.
Proof. apply dt_init_rep. now split. Qed.

(** ** Strings *)
Definition enc_profile (limit : Z) : profile :=
  Profile huff_strict (fun n => n < 2 ^ 30) (fun bs v => lenZ bs <= 6 /\ v < 2 ^ 32) limit.

Lemma enc_profile_rfc limit : profile_le (enc_profile limit) (rfc_profile limit).
Proof. constructor; cbn [enc_profile rfc_profile p_huff p_string p_int p_limit]; auto. lia. Qed.

Lemma rfc_int_flag N b b' rest v : rfc_int N (b :: rest) v -> is_byte b' -> b' mod 2 ^ N = b mod 2 ^ N ->
  rfc_int N (b' :: rest) v.
Proof. intros H Hb E. inversion H; subst; rewrite <- E in *; constructor; auto. Qed.

Lemma flag_octet k b : (k = 6 \/ k = 7) -> 0 <= b < 2 ^ k -> u8 (Z.lor b (2 ^ k)) = 2 ^ k + b.
Proof.
  intros Hk H. unfold u8. rewrite Z.lor_comm, (lor_disjoint_add (2 ^ k) b k).
  - destruct Hk; subst k; [change (2 ^ 6) with 64 in *|change (2 ^ 7) with 128 in *]; apply Z.mod_small; lia.
  - lia.
  - apply Z.mod_same. destruct Hk; subst k; easy.
  - exact H.
Qed.

Lemma code_bits_max s : all_bytes s -> lenZ (huff_bits s) <= 30 * lenZ s.
Proof.
  intros H. rewrite huff_bits_total by auto. induction s as [|c s IH]; [easy|].
  apply all_bytes_cons in H as [Hc Hs]. unfold total_code_bits in *. cbn [map fold_right].
  pose proof (code_len_bounds c Hc). specialize (IH Hs). rewrite lenZ_cons. lia.
Qed.

Lemma write_string_spec cs limit s : string_ok cs s ->
  exists bs, write_length_and_string cs s = Ret bs /\ rfc_string (enc_profile limit) bs s.
Proof.
  intros (Hs & Hl & Ha). unfold write_length_and_string, MAX_PLAIN_TEXT_STRING_LENGTH.
  destruct (lenZ s >? 3) eqn:E.
  - assert (A : ascii_if_signed cs s) by (intros C; destruct (Ha C); [lia|assumption]).
    destruct (huffman_encode_strict cs s Hs A) as (p & Ep & Hp & Hst). rewrite Ep. cbn [obind].
    assert (Hpl : 0 <= lenZ p < 2 ^ 32).
    { destruct Hst as (pad & Eb & Lp & _). pose proof (code_bits_max s Hs).
      assert (length (payload_bits p) = 8 * length p)%nat by apply payload_bits_length.
      rewrite Eb, app_length in H0. unfold lenZ in *.
      change (2 ^ 32) with 4294967296. change (2 ^ 30) with 1073741824 in Hl. lia. }
    replace (u32 (lenZ p)) with (lenZ p) by (unfold u32; change (2 ^ 32) with 4294967296 in Hpl; rewrite Z.mod_small; lia).
    destruct (int_encode_spec 7 (lenZ p) ltac:(lia) Hpl) as (b & rest & -> & Hb & Hi & Hlen & _). cbn [obind].
    change (2 ^ 7) with 128 in Hb.
    eexists. split; [reflexivity|].
    change (?x :: rest ++ p) with ((x :: rest) ++ p).
    rewrite Z.lor_comm, (flag_octet 7) by (cbn; lia). change (2 ^ 7) with 128.
    apply string_huffman; auto; try lia.
    split; [|split; [|lia]].
    + apply rfc_int_flag with b; auto; [unfold is_byte; lia|]. change (2 ^ 7) with 128.
      rewrite <- (Z.mod_add b 1 128) by lia. f_equal. lia.
    + unfold lenZ in *. cbn in *. lia.
  - assert (Hr : 0 <= lenZ s < 2 ^ 32) by (pose proof (lenZ_nonneg s); change (2 ^ 32) with 4294967296; lia).
    replace (u32 (lenZ s)) with (lenZ s) by (unfold u32; rewrite Z.mod_small; lia).
    destruct (int_encode_spec 7 (lenZ s) ltac:(lia) Hr) as (b & rest & -> & Hb & Hi & Hlen & _). cbn [obind].
    eexists. split; [reflexivity|]. change (b :: rest ++ s) with ((b :: rest) ++ s).
    apply string_raw; auto; [|cbn in Hb; lia]. split; auto. split; [exact Hlen|lia].
Qed.

(** ** One header *)
Lemma static_index_lt p i : find_index p STATIC_TABLE = Some i ->
  0 <= i < 61 /\ exists h, nth_error rfc_static (Z.to_nat i) = Some h /\ p h = true.
Proof.
  intros H. apply find_index_some in H as (Hi & h & Hn & Hp & _). rewrite static_table_eq in Hn.
  assert (L : (Z.to_nat i < length rfc_static)%nat) by (apply nth_error_Some; congruence).
  change (length rfc_static) with 61%nat in L. split; [lia|eauto].
Qed.

Lemma entry_static l i h : 0 <= i < 61 -> nth_error rfc_static (Z.to_nat i) = Some h ->
  table_entry l (i + 1) = Some h.
Proof.
  intros Hi H. unfold table_entry. replace (1 <=? i + 1) with true by lia.
  replace (i + 1 - 1) with i by lia. rewrite nth_error_app1; auto.
  change (length rfc_static) with 61%nat. lia.
Qed.

Lemma entry_dynamic l i h : 0 <= i -> nth_error l (Z.to_nat i) = Some h ->
  table_entry l (61 + i + 1) = Some h.
Proof.
  intros Hi H. unfold table_entry. replace (1 <=? 61 + i + 1) with true by lia.
  rewrite nth_error_app2; change (length rfc_static) with 61%nat; [|lia].
  rewrite <- H. f_equal. lia.
Qed.

Lemma short_int P N b i : p_int P = p_int (enc_profile 0) -> 1 <= N <= 8 -> is_byte b ->
  b mod 2 ^ N = i -> i < 2 ^ N - 1 -> p_rfc_int P N [b] i.
Proof.
  intros HP HN Hb E Hi. split.
  - subst i. now constructor.
  - rewrite HP. cbn [enc_profile p_int]. split; [easy|].
    assert (2 ^ N <= 2 ^ 8) by (apply Z.pow_le_mono_r; lia). change (2 ^ 8) with 256 in *.
    change (2 ^ 32) with 4294967296. lia.
Qed.

Lemma string_ok_len cs s : string_ok cs s -> lenZ s < 2 ^ 30.
Proof. now intros (_ & H & _). Qed.

Lemma header_ok_sane cs h : header_ok cs h -> header_sane h.
Proof.
  intros [H1%string_ok_len H2%string_ok_len]. unfold header_sane, entry_size.
  change (2 ^ 30) with 1073741824 in *. change (2 ^ 63) with 9223372036854775808. lia.
Qed.

Lemma first_at_unique (l : list header) i h :
  nth_error l i = Some h -> (forall j, (j < i)%nat -> nth_error l j <> Some h) ->
  forall k, nth_error l k = Some h -> (i <= k)%nat.
Proof. intros H1 H2 k Hk. destruct (le_lt_dec i k); auto. exfalso. eapply H2; eauto. Qed.

Lemma in_tables_true l h : in_tables l h = true <-> In h rfc_static \/ In h l.
Proof.
  assert (K : forall l, existsb (header_eqb h) l = true <-> In h l).
  { intros l0. rewrite existsb_exists. split.
    - intros (x & Hx & E). apply header_eqb_eq in E. now subst.
    - intros H. exists h. split; auto. now apply header_eqb_eq. }
  unfold in_tables. rewrite orb_true_iff, !K. tauto.
Qed.

Lemma encode_header_spec cs t l M h : dt_rep t l M -> header_ok cs h -> reachable_field l h ->
  exists bs t', encode_header cs t h = Ret (bs, t') /\
    dt_rep t' (after_field M l h) M /\
    forall limit m, rfc_repr (enc_profile limit) (l, m) bs [h] (after_field m l h, m).
Proof.
  unfold after_field.
  intros R Hok Hr. pose proof R as (Etab & _). unfold encode_header.
  pose proof (header_ok_sane _ _ Hok) as Hsane. destruct Hok as [Hn Hv].
  destruct (find_index _ STATIC_TABLE) as [i|] eqn:E1.
  { apply static_index_lt in E1 as (Hi & x & Hx & Hp).
    assert (x = h).
    { apply andb_prop in Hp as [P1 P2]. apply bytes_eqb_eq in P1, P2. destruct x, h; cbn in *; congruence. }
    subst x. assert (IT : in_tables l h = true).
    { apply in_tables_true. left. eapply nth_error_In; eauto. }
    rewrite IT. eexists _, t. split; [reflexivity|]. split; [exact R|].
    intros limit m. change 128 with (2 ^ 7). rewrite flag_octet by (auto; try change (2 ^ 7) with 128; try change (2 ^ 6) with 64; lia). change (2 ^ 7) with 128.
    apply repr_indexed with (i + 1); [lia| |now apply entry_static].
    apply short_int; auto; try (unfold is_byte; lia); change (2 ^ 7) with 128; lia. }
  assert (NS : ~ In h rfc_static).
  { intros Hin. apply find_index_none in E1. rewrite Forall_forall in E1. rewrite static_table_eq in E1.
    specialize (E1 _ Hin). assert (P : bytes_eqb (h_name h) (h_name h) = true) by now apply bytes_eqb_eq.
    assert (Q : bytes_eqb (h_value h) (h_value h) = true) by now apply bytes_eqb_eq.
    rewrite P, Q in E1. easy. }
  pose proof (dt_find_spec t h) as F. rewrite Etab in F.
  destruct (dt_find t h) as [i|].
  { destruct F as (Hi & Hnth & Hmin).
    assert (Hi64 : i <= 64).
    { destruct Hr as [?|[(k & Hk & Hk')|(Hnin & _)]]; [easy| |].
      - pose proof (first_at_unique _ _ _ Hnth Hmin k Hk'). lia.
      - exfalso. apply Hnin. eapply nth_error_In; eauto. }
    assert (IT : in_tables l h = true).
    { apply in_tables_true. right. eapply nth_error_In; eauto. }
    rewrite IT. eexists _, t. split; [reflexivity|]. split; [exact R|].
    intros limit m. change (lenZ STATIC_TABLE) with 61.
    change 128 with (2 ^ 7). rewrite flag_octet by (auto; try change (2 ^ 7) with 128; try change (2 ^ 6) with 64; lia). change (2 ^ 7) with 128.
    apply repr_indexed with (61 + i + 1); [lia| |now apply entry_dynamic].
    apply short_int; auto; try (unfold is_byte; lia); change (2 ^ 7) with 128; lia. }
  assert (IT : in_tables l h = false).
  { destruct (in_tables l h) eqn:IT; auto. apply in_tables_true in IT. tauto. }
  rewrite IT.
  destruct (dt_insert_rep t l M h R Hsane) as (t' & Eins & R').
  match goal with |- context [match ?e with Some _ => _ | None => _ end] =>
    destruct e as [i|] eqn:E2 end.
  { apply static_index_lt in E2 as (Hi & x & Hx & Hp). apply bytes_eqb_eq in Hp.
    destruct (write_string_spec cs 0 _ Hv) as (vb & Evb & _).
    rewrite Evb, Eins. cbn [obind].
    eexists _, t'. split; [reflexivity|]. split; [exact R'|].
    intros limit m. destruct (write_string_spec cs limit _ Hv) as (vb' & Evb' & Hvb).
    rewrite Evb in Evb'. injection Evb' as <-.
    change 64 with (2 ^ 6). rewrite flag_octet by (auto; try change (2 ^ 7) with 128; try change (2 ^ 6) with 64; lia). change (2 ^ 6) with 64.
    destruct h as [n v]; cbn [h_name h_value] in *. subst n.
    change (64 + (i + 1) :: vb) with ((64 + (i + 1) :: []) ++ vb).
    apply repr_incremental; [lia| |exact Hvb].
    apply name_indexed with (i + 1); [|lia|now apply entry_static].
    apply short_int; auto; try (unfold is_byte; lia); change (2 ^ 6) with 64; lia. }
  assert (NSN : ~ static_name (h_name h)).
  { intros (x & Hin & Hx). apply find_index_none in E2. rewrite Forall_forall in E2.
    rewrite static_table_eq in E2. specialize (E2 _ Hin). apply bytes_eqb_neq in E2. congruence. }
  assert (Hrest : (forall x, In x l -> h_name x <> h_name h) \/
    (exists x rest, l = x :: rest /\ h_name x = h_name h)).
  { destruct Hr as [?|[(k & Hk & Hk')|(_ & [?|?])]]; try easy.
    exfalso. apply F. eapply nth_error_In; eauto. }
  clear Hr.
  pose proof (dt_find_name_spec t (h_name h)) as G. rewrite Etab in G.
  destruct (write_string_spec cs 0 _ Hv) as (vb & Evb & _).
  destruct (dt_find_name t (h_name h)) as [i|].
  { destruct G as (Hi & (x & Hx & Hxn) & Hmin).
    assert (i = 0).
    { destruct Hrest as [Hno|(y & rest & El & Hy)].
      - exfalso. eapply Hno; [eapply nth_error_In; eauto|auto].
      - destruct (Z.eq_dec i 0); auto. exfalso. apply (Hmin 0%nat y); [lia|now rewrite El|auto]. }
    subst i.
    rewrite Evb, Eins. cbn [obind].
    eexists _, t'. split; [reflexivity|]. split; [exact R'|].
    intros limit m. destruct (write_string_spec cs limit _ Hv) as (vb' & Evb' & Hvb).
    rewrite Evb in Evb'. injection Evb' as <-.
    change (u8 (Z.lor (lenZ STATIC_TABLE + 0 + 1) 64) :: vb) with ((126 :: []) ++ vb).
    destruct h as [n v]; cbn [h_name h_value] in *. subst n.
    apply repr_incremental; [lia| |exact Hvb].
    apply name_indexed with 62; [|lia|now apply (entry_dynamic l 0)].
    apply short_int; auto; unfold is_byte; try lia; reflexivity. }
  destruct (write_string_spec cs 0 _ Hn) as (nb & Enb & _).
  rewrite Enb, Evb, Eins. cbn [obind].
  eexists _, t'. split; [reflexivity|]. split; [exact R'|].
  intros limit m. destruct (write_string_spec cs limit _ Hv) as (vb' & Evb' & Hvb).
  rewrite Evb in Evb'. injection Evb' as <-.
  destruct (write_string_spec cs limit _ Hn) as (nb' & Enb' & Hnb).
  rewrite Enb in Enb'. injection Enb' as <-.
  change (64 :: nb ++ vb) with ((64 :: nb) ++ vb).
  destruct h as [n v]; cbn [h_name h_value] in *.
  apply repr_incremental; [lia| |exact Hvb].
  change (64 :: nb) with ([64] ++ nb). apply name_literal; [|exact Hnb].
  apply short_int; auto; unfold is_byte; try lia; reflexivity.
Qed.

(** ** Blocks and connections.  The decoder's limit [m] may differ from the encoder's
    [M] as long as no step evicts differently. *)
Fixpoint same_tables (m M : Z) (dyn : list header) (hs : list header) : Prop :=
  match hs with
  | [] => True
  | h :: rest => after_field m dyn h = after_field M dyn h /\ same_tables m M (after_field M dyn h) rest
  end.

Definition after_fields (M : Z) (dyn : list header) (hs : list header) : list header :=
  fold_left (after_field M) hs dyn.

Lemma hpack_encode_spec cs M hs : forall t l, dt_rep t l M -> Forall (header_ok cs) hs ->
  all_reachable M l hs ->
  exists bs t', hpack_encode cs t hs = Ret (bs, t') /\ dt_rep t' (after_fields M l hs) M /\
    forall limit m, same_tables m M l hs ->
      rfc_block (enc_profile limit) (l, m) bs hs (after_fields M l hs, m).
Proof.
  induction hs as [|h hs IH]; intros t l R Hok Hr; cbn [hpack_encode].
  - exists [], t. repeat split; auto; try apply R. constructor.
  - inversion Hok as [|? ? Hh Hhs]; subst. destruct Hr as [Hr1 Hr2].
    destruct (encode_header_spec cs t l M h R Hh Hr1) as (b1 & t1 & -> & R1 & H1). cbn [obind].
    destruct (IH t1 _ R1 Hhs Hr2) as (b2 & t2 & -> & R2 & H2). cbn [obind].
    exists (b1 ++ b2), t2. split; [reflexivity|]. split; [exact R2|].
    intros limit m [S1 S2]. change (h :: hs) with ([h] ++ hs).
    eapply block_cons; [apply H1|]. rewrite S1. now apply H2.
Qed.

Lemma after_fields_app M l a b : after_fields M l (a ++ b) = after_fields M (after_fields M l a) b.
Proof. apply fold_left_app. Qed.

Lemma all_reachable_app M a b : forall l, all_reachable M l (a ++ b) <->
  all_reachable M l a /\ all_reachable M (after_fields M l a) b.
Proof.
  induction a as [|h a IH]; intros l; cbn [app all_reachable]; [cbn; tauto|].
  rewrite IH. cbn. tauto.
Qed.

Lemma same_tables_app m M a b : forall l, same_tables m M l (a ++ b) <->
  same_tables m M l a /\ same_tables m M (after_fields M l a) b.
Proof.
  induction a as [|h a IH]; intros l; cbn [app same_tables]; [cbn; tauto|].
  rewrite IH. cbn. tauto.
Qed.

Lemma same_tables_refl M hs : forall l, same_tables M M l hs.
Proof. induction hs; cbn; auto. Qed.

Lemma encode_seq_spec cs M hss : forall t l, dt_rep t l M -> Forall (Forall (header_ok cs)) hss ->
  all_reachable M l (concat hss) ->
  exists bs t', encode_seq cs t hss = Ret (bs, t') /\ dt_rep t' (after_fields M l (concat hss)) M /\
    forall limit m, same_tables m M l (concat hss) ->
      rfc_blocks (enc_profile limit) (l, m) bs hss (after_fields M l (concat hss), m).
Proof.
  induction hss as [|hs hss IH]; intros t l R Hok Hr; cbn [encode_seq concat] in *.
  - exists [], t. repeat split; auto; try apply R. constructor.
  - inversion Hok as [|? ? Hh Hhs]; subst. apply all_reachable_app in Hr as [Hr1 Hr2].
    destruct (hpack_encode_spec cs M hs t l R Hh Hr1) as (b1 & t1 & -> & R1 & H1). cbn [obind].
    destruct (IH t1 _ R1 Hhs Hr2) as (b2 & t2 & -> & R2 & H2). cbn [obind].
    exists (b1 :: b2), t2. split; [reflexivity|]. rewrite after_fields_app. split; [exact R2|].
    intros limit m [S1 S2]%same_tables_app. eapply blocks_cons; [apply H1; auto|now apply H2].
Qed.

Lemma responses_survive cs hss : Forall (Forall (header_ok cs)) hss ->
  all_reachable 65536 [] (concat hss) ->
  exists bs t, encode_seq cs (dt_init DEFAULT_MAX_TABLE_SIZE) hss = Ret (bs, t) /\
    rfc_blocks (rfc_profile 65536) ([], 65536) bs hss (dt_table t, 65536).
Proof.
  intros Hok Hr.
  pose proof init_rep as R.
  destruct (encode_seq_spec cs 65536 hss _ _ R Hok Hr) as (bs & t & E & R' & H).
  exists bs, t. split; auto. pose proof R' as (-> & _).
  eapply blocks_le; [apply enc_profile_rfc|]. apply H. apply same_tables_refl.
Qed.

(** An RFC decoder cannot read the blocks in another way. *)
Lemma rfc_reading_unique limit st bs hss st1 hss' st1' :
  rfc_blocks (rfc_profile limit) st bs hss st1 -> rfc_blocks (rfc_profile limit) st bs hss' st1' ->
  hss' = hss /\ st1' = st1.
Proof.
  intros H H'. destruct (blocks_det _ (rfc_profile_functional limit) _ _ _ _ H _ _ H'). auto.
Qed.

(** ** Few distinct fields *)
Definition one_value (D : list header) : Prop :=
  forall x y, In x D -> In y D -> h_name x = h_name y -> ~ static_name (h_name x) -> x = y.

Lemma fit_incl m l : incl (fit m l) l.
Proof.
  destruct (fit_prefix l m) as (e & E). intros x Hx. rewrite E. apply in_or_app. auto.
Qed.

Lemma NoDup_app_l {A} (a b : list A) : NoDup (a ++ b) -> NoDup a.
Proof.
  induction a as [|x a IH]; intros H; [constructor|]. inversion H; subst. constructor; auto.
  intros Q. apply H2. apply in_or_app. auto.
Qed.

Lemma fit_NoDup m l : NoDup l -> NoDup (fit m l).
Proof.
  destruct (fit_prefix l m) as (e & E). intros H. rewrite E in H. now apply NoDup_app_l in H.
Qed.

Lemma static_name_dec n : static_name n \/ ~ static_name n.
Proof.
  destruct (find_index (fun x => bytes_eqb (h_name x) n) rfc_static) as [i|] eqn:E.
  - left. apply find_index_some in E as (_ & h & Hn & Hp & _). apply bytes_eqb_eq in Hp.
    exists h. split; auto. eapply nth_error_In; eauto.
  - right. intros (h & Hin & Hn). apply find_index_none in E. rewrite Forall_forall in E.
    specialize (E _ Hin). apply bytes_eqb_neq in E. congruence.
Qed.

Lemma few_fields_reachable D l h : (length D <= 65)%nat -> one_value D -> NoDup l -> incl l D -> In h D ->
  reachable_field l h.
Proof.
  intros HD H1 Hnd Hin Hh. pose proof (NoDup_incl_length Hnd Hin).
  destruct (in_tables l h) eqn:E.
  - apply in_tables_true in E as [E|E]; [now left|]. right. left.
    apply In_nth_error in E as (i & Ei). exists i. split; auto.
    assert (i < length l)%nat by (apply nth_error_Some; congruence). lia.
  - assert (N : ~ In h l /\ ~ In h rfc_static).
    { split; intros Q; enough (in_tables l h = true) by congruence; apply in_tables_true; auto. }
    right. right. split; [apply N|].
    destruct (static_name_dec (h_name h)) as [S|S]; auto. right. left.
    intros x Hx Ex. apply (proj1 N). replace h with x; auto. apply H1; auto. now rewrite Ex.
Qed.

Lemma after_field_inv M D l h : NoDup l -> incl l D -> In h D ->
  NoDup (after_field M l h) /\ incl (after_field M l h) D.
Proof.
  intros Hnd Hin Hh. unfold after_field. destruct (in_tables l h) eqn:E; auto. split.
  - apply fit_NoDup. constructor; auto. intros Q.
    enough (in_tables l h = true) by congruence. apply in_tables_true. auto.
  - intros x Hx%fit_incl. destruct Hx as [<-|Hx]; auto.
Qed.

Lemma few_fields_all_reachable M D hs : (length D <= 65)%nat -> one_value D ->
  Forall (fun h => In h D) hs -> forall l, NoDup l -> incl l D -> all_reachable M l hs.
Proof.
  intros HD H1. induction 1 as [|h hs Hh _ IH]; intros l Hnd Hin; cbn [all_reachable]; auto.
  destruct (after_field_inv M D l h Hnd Hin Hh). split; auto.
  eapply few_fields_reachable; eauto.
Qed.

Lemma table_size_app a b : table_size (a ++ b) = table_size a + table_size b.
Proof. induction a as [|x a IH]; [reflexivity|]. cbn [app]. rewrite !table_size_cons. lia. Qed.

Lemma table_size_incl l : forall D, NoDup l -> incl l D -> table_size l <= table_size D.
Proof.
  induction l as [|x l IH]; intros D Hnd Hin; [apply table_size_nonneg|].
  inversion Hnd; subst. assert (Hx : In x D) by (apply Hin; now left).
  apply in_split in Hx as (a & b & ->).
  assert (incl l (a ++ b)).
  { intros y Hy. assert (In y (a ++ x :: b)) as Q by (apply Hin; now right).
    apply in_app_or in Q as [Q|[->|Q]]; [apply in_or_app; auto|easy|apply in_or_app; auto]. }
  specialize (IH (a ++ b) ltac:(assumption) ltac:(assumption)).
  rewrite table_size_app in *. rewrite !table_size_cons. lia.
Qed.

Lemma small_set_same_tables m M D hs : table_size D <= m -> m <= M ->
  Forall (fun h => In h D) hs -> forall l, NoDup l -> incl l D -> same_tables m M l hs.
Proof.
  intros Hm HM. induction 1 as [|h hs Hh _ IH]; intros l Hnd Hin; cbn [same_tables]; auto.
  destruct (after_field_inv M D l h Hnd Hin Hh). split; auto.
  unfold after_field in *. destruct (in_tables l h) eqn:E; auto.
  assert (N : ~ In h l).
  { intros Q. enough (in_tables l h = true) by congruence. apply in_tables_true. auto. }
  assert (table_size (h :: l) <= table_size D).
  { apply table_size_incl; [now constructor|]. intros x [<-|Hx]; auto. }
  rewrite !fit_all by lia. reflexivity.
Qed.

Lemma few_fields_survive cs D hss : (length D <= 65)%nat -> one_value D ->
  Forall (header_ok cs) D -> Forall (Forall (fun h => In h D)) hss ->
  exists bs t, encode_seq cs (dt_init DEFAULT_MAX_TABLE_SIZE) hss = Ret (bs, t) /\
    rfc_blocks (rfc_profile 65536) ([], 65536) bs hss (dt_table t, 65536).
Proof.
  intros HD H1 Hok Hin. apply responses_survive.
  - eapply Forall_impl; [|exact Hin]. intros hs Hhs. eapply Forall_impl; [|exact Hhs].
    intros h Hh. rewrite Forall_forall in Hok. auto.
  - apply few_fields_all_reachable with D; auto; [|constructor|easy].
    apply Forall_concat. exact Hin.
Qed.

Lemma few_fields_default cs D hss : (length D <= 65)%nat -> one_value D ->
  NoDup D -> table_size D <= 4096 ->
  Forall (Forall (header_ok cs)) hss -> Forall (Forall (fun h => In h D)) hss ->
  exists bs t, encode_seq cs (dt_init DEFAULT_MAX_TABLE_SIZE) hss = Ret (bs, t) /\
    rfc_blocks (rfc_profile 4096) ([], 4096) bs hss (dt_table t, 4096).
Proof.
  intros HD H1 Hnd Hsz Hok Hin.
  assert (Hc : Forall (fun h => In h D) (concat hss)) by (apply Forall_concat; exact Hin).
  pose proof init_rep as R.
  destruct (encode_seq_spec cs 65536 hss _ _ R Hok) as (bs & t & E & R' & H).
  - apply few_fields_all_reachable with D; auto; [constructor|easy].
  - exists bs, t. split; auto. pose proof R' as (-> & _).
    eapply blocks_le; [apply enc_profile_rfc|]. apply H.
    apply small_set_same_tables with D; auto; [lia|constructor|easy].
Qed.
Lemma few_fields_survive_default cs D hss : (length D <= 65)%nat -> one_value D ->
  NoDup D -> table_size D <= 4096 ->
  Forall (header_ok cs) D -> Forall (Forall (fun h => In h D)) hss ->
  exists bs t, encode_seq cs (dt_init DEFAULT_MAX_TABLE_SIZE) hss = Ret (bs, t) /\
    rfc_blocks (rfc_profile 4096) ([], 4096) bs hss (dt_table t, 4096).
Proof.
  intros HD H1 Hnd Hsz Hok Hin. apply few_fields_default with D; auto.
  eapply Forall_impl; [|exact Hin]. intros hs Hhs. eapply Forall_impl; [|exact Hhs].
  intros h Hh. rewrite Forall_forall in Hok. auto.
Qed.

(** ** Deciding the guards on concrete data *)
Definition string_okb (cs : bool) (s : bytes) : bool :=
  all_bytesb s && (lenZ s <? 2 ^ 30) && (negb cs || (lenZ s <=? 3) || forallb (fun c => c <? 128) s).
Definition header_okb (cs : bool) (h : header) : bool :=
  string_okb cs (h_name h) && string_okb cs (h_value h).

Lemma string_okb_ok cs s : string_okb cs s = true -> string_ok cs s.
Proof.
  unfold string_okb. intros H. apply andb_prop in H as [H H3]. apply andb_prop in H as [H1 H2].
  split; [now apply all_bytesb_ok|]. split; [lia|]. intros ->. cbn [negb orb] in H3.
  apply orb_prop in H3 as [H3|H3]; [left; lia|right].
  rewrite forallb_forall in H3. apply Forall_forall. intros c Hc. specialize (H3 c Hc). lia.
Qed.
Lemma headers_okb_ok cs hs : forallb (header_okb cs) hs = true -> Forall (header_ok cs) hs.
Proof.
  intros H. rewrite forallb_forall in H. apply Forall_forall. intros h Hh. specialize (H h Hh).
  apply andb_prop in H as [H1 H2]. split; now apply string_okb_ok.
Qed.

Definition reachable_fieldb (dyn : list header) (h : header) : bool :=
  in_tables (firstn 65 dyn) h ||
  (negb (existsb (header_eqb h) dyn) &&
   (existsb (fun x => bytes_eqb (h_name x) (h_name h)) rfc_static ||
    negb (existsb (fun x => bytes_eqb (h_name x) (h_name h)) dyn) ||
    match dyn with [] => false | x :: _ => bytes_eqb (h_name x) (h_name h) end)).

Lemma nth_error_firstn {A} n : forall (l : list A) i x, nth_error (firstn n l) i = Some x ->
  (i < n)%nat /\ nth_error l i = Some x.
Proof.
  induction n as [|n IH]; intros l i x H; [destruct i; easy|].
  destruct l as [|y l]; [destruct i; easy|]. destruct i as [|i]; cbn in H; [split; [lia|auto]|].
  apply IH in H as [H1 H2]. split; [lia|auto].
Qed.

Lemma existsb_false_forall {A} (f : A -> bool) l : existsb f l = false -> forall x, In x l -> f x = false.
Proof.
  intros H x Hx. destruct (f x) eqn:E; auto. exfalso.
  assert (existsb f l = true) by (apply existsb_exists; eauto). congruence.
Qed.

Lemma reachable_fieldb_ok dyn h : reachable_fieldb dyn h = true -> reachable_field dyn h.
Proof.
  unfold reachable_fieldb. intros H. apply orb_prop in H as [H|H].
  - apply in_tables_true in H as [H|H]; [now left|]. right. left.
    apply In_nth_error in H as (i & Hi). apply nth_error_firstn in Hi as [Hi Hn].
    exists i. split; [lia|auto].
  - apply andb_prop in H as [H1 H2]. right. right. split.
    + intros Hin. apply negb_true_iff in H1. pose proof (existsb_false_forall _ _ H1 _ Hin) as Q.
      assert (header_eqb h h = true) by now apply header_eqb_eq. congruence.
    + apply orb_prop in H2 as [H2|H2]; [apply orb_prop in H2 as [H2|H2]|].
      * left. apply existsb_exists in H2 as (x & Hx & E). apply bytes_eqb_eq in E. exists x; auto.
      * right. left. apply negb_true_iff in H2. intros x Hx Ex.
        pose proof (existsb_false_forall _ _ H2 _ Hx) as Q. cbn in Q. apply bytes_eqb_neq in Q. congruence.
      * right. right. destruct dyn as [|x r]; [easy|]. apply bytes_eqb_eq in H2. eauto.
Qed.

Fixpoint all_reachableb (max : Z) (dyn : list header) (hs : list header) : bool :=
  match hs with
  | [] => true
  | h :: rest => reachable_fieldb dyn h && all_reachableb max (after_field max dyn h) rest
  end.
Lemma all_reachableb_ok M hs : forall l, all_reachableb M l hs = true -> all_reachable M l hs.
Proof.
  induction hs as [|h hs IH]; intros l H; cbn in *; auto. apply andb_prop in H as [H1 H2].
  split; [now apply reachable_fieldb_ok|auto].
Qed.

(** ** Counterexamples *)
(** An indexed field whose index is a single octet below the prefix limit and absent. *)
Lemma index_absent_stuck P dyn m b rest : 128 <= b < 255 -> table_entry dyn (b - 128) = None ->
  stuck P (dyn, m) (b :: rest).
Proof.
  intros Hb Hn. split; [easy|]. intros used rest' hs st' E H.
  inversion H as [d mx f rr i h Hf' [Hi' _] Hte|d mx f rr n vb v Hf' Hn' Hv
                  |d mx f rr n vb v Hf' Hn' Hv|d mx f rr n Hf' Hi' Hl']; subst;
    assert (f = b) by (cbn in E; now injection E); subst f; try lia.
  assert (Hi : rfc_int 7 [b] (b mod 2 ^ 7)).
  { constructor; [unfold is_byte; lia|]. change (2 ^ 7) with 128. lia. }
  destruct (rfc_int_prefix_free _ _ _ Hi _ _ rest rest' Hi' E) as (_ & _ & <-).
  change (2 ^ 7) with 128 in Hte. replace (b mod 128) with (b - 128) in Hte by lia. congruence.
Qed.

(** A literal with incremental indexing whose name index is absent. *)
Lemma name_absent_stuck P dyn m b ib i rest : 64 <= b < 128 -> rfc_int 6 (b :: ib) i -> i <> 0 ->
  table_entry dyn i = None -> stuck P (dyn, m) ((b :: ib) ++ rest).
Proof.
  intros Hb Hi Hz Hn. split; [easy|]. intros used rest' hs st' E H.
  inversion H as [d mx f rr i0 h Hf' [Hi' _] Hte|d mx f rr n vb v Hf' Hn' Hv
                  |d mx f rr n vb v Hf' Hn' Hv|d mx f rr n Hf' Hi' Hl']; subst;
    assert (f = b) by (cbn in E; now injection E); subst f; try lia.
  rewrite <- app_assoc in E.
  inversion Hn' as [ib' i' h' [Hi' _] Hz' Hte E1 E2|ib' sb' s' [Hi' _] Hs' E1 E2]; subst.
  - destruct (rfc_int_prefix_free _ _ _ Hi _ _ _ _ Hi' E) as (_ & _ & ->). congruence.
  - rewrite <- E1, <- app_assoc in E.
    destruct (rfc_int_prefix_free _ _ _ Hi _ _ _ _ Hi' E) as (_ & _ & ->). easy.
Qed.

Lemma blocks_app_inv P st a : forall b hss st1, rfc_blocks P st (a ++ b) hss st1 ->
  exists h1 h2 stm, hss = h1 ++ h2 /\ rfc_blocks P st a h1 stm /\ rfc_blocks P stm b h2 st1.
Proof.
  revert st. induction a as [|x a IH]; intros st b hss st1 H; cbn [app] in H.
  - exists [], hss, st. repeat split; auto. constructor.
  - inversion H as [|? ? ? ? ? ? ? Hb Hbs]; subst.
    destruct (IH _ _ _ _ Hbs) as (h1 & h2 & stm & -> & Ha & Hb').
    exists (hs :: h1), h2, stm. repeat split; auto. econstructor; eauto.
Qed.

Lemma stuck_blocks limit st a hss stm b rest : rfc_blocks (rfc_profile limit) st a hss stm ->
  stuck (rfc_profile limit) stm b ->
  forall hss' st', ~ rfc_blocks (rfc_profile limit) st (a ++ b :: rest) hss' st'.
Proof.
  intros Ha Hs hss' st' H. apply blocks_app_inv in H as (h1 & h2 & stm' & -> & Ha' & Hb).
  destruct (rfc_reading_unique _ _ _ _ _ _ _ Ha Ha') as [-> ->].
  inversion Hb as [|? ? ? ? ? ? ? Hb1 _]; subst.
  destruct (block_inv _ _ _ _ _ Hb1) as [(E1 & _)|(x & hx & sx & y & hy & E1 & _ & Hx & _)].
  - destruct Hs. easy.
  - destruct Hs as [_ Hs]. eapply Hs; eauto.
Qed.

Lemma blocks_snoc P st a hss stm b hs st' : rfc_blocks P st a hss stm -> rfc_block P stm b hs st' ->
  rfc_blocks P st (a ++ [b]) (hss ++ [hs]) st'.
Proof.
  induction 1 as [st|st x hx st1 bs hss st2 Hx Hbs IH]; intros Hb; cbn [app].
  - econstructor; [exact Hb|constructor].
  - econstructor; eauto.
Qed.

Definition short_field (k : nat) : header := Hdr [97; 48 + Z.of_nat k] [49].
Definition many_fields : list header := map short_field (seq 0 68).
Definition two_fields : list header := [Hdr [97] [49]; Hdr [98] [50]].
Definition big_field : header := Hdr (str "set-cookie") (repeat 97 4100).

Lemma dynamic_name_lost cs : exists bs t,
  encode_seq cs (dt_init DEFAULT_MAX_TABLE_SIZE) [two_fields; [Hdr [97] [51]]] = Ret (bs, t) /\
  forall limit hss st, ~ rfc_blocks (rfc_profile limit) ([], 65536) bs hss st.
Proof.
  assert (E : exists b1 t1, encode_seq cs (dt_init DEFAULT_MAX_TABLE_SIZE) [two_fields] = Ret ([b1], t1) /\
    encode_seq cs (dt_init DEFAULT_MAX_TABLE_SIZE) [two_fields; [Hdr [97] [51]]] =
      Ret ([b1] ++ [[127; 1; 51]], DT (Hdr [97] [51] :: rev two_fields) 102 65536) /\
    dt_table t1 = rev two_fields).
  { eexists _, _. split; [vm_compute; reflexivity|]. split; vm_compute; reflexivity. }
  destruct E as (b1 & t1 & E1 & E2 & Et).
  exists ([b1] ++ [[127; 1; 51]]). eexists. split; [exact E2|]. intros limit.
  pose proof init_rep as R.
  destruct (encode_seq_spec cs 65536 [two_fields] _ _ R) as (bs & t & E & R' & H).
  { constructor; [|constructor]. apply headers_okb_ok. destruct cs; reflexivity. }
  { apply all_reachableb_ok. reflexivity. }
  rewrite E1 in E. injection E as <- <-.
  specialize (H limit 65536 (same_tables_refl _ _ _)).
  apply (blocks_le _ _ (enc_profile_rfc limit)) in H.
  apply (stuck_blocks limit _ _ _ _ _ [] H).
  change [127; 1; 51] with ((127 :: [1]) ++ [51]). apply name_absent_stuck with 64; [lia| |lia|reflexivity].
  clear. change 64 with (2 ^ 6 - 1 + 1). constructor; [now split|reflexivity|]. constructor. lia.
Qed.

Lemma first_static dyn m :
  rfc_repr (rfc_profile 65536) (dyn, m) [129] [Hdr (str ":authority") []] (dyn, m).
Proof.
  apply repr_indexed with 1; [lia| |reflexivity].
  split; [|exact I]. change 1 with (129 mod 2 ^ 7). constructor; [now split|reflexivity].
Qed.

Lemma far_field_replaced cs : exists bs t st,
  encode_seq cs (dt_init DEFAULT_MAX_TABLE_SIZE) [many_fields; [short_field 0]] = Ret (bs, t) /\
  rfc_blocks (rfc_profile 65536) ([], 65536) bs [many_fields; [Hdr (str ":authority") []]] st.
Proof.
  assert (E : exists b1 t1, encode_seq cs (dt_init DEFAULT_MAX_TABLE_SIZE) [many_fields] = Ret ([b1], t1) /\
    exists t2, encode_seq cs (dt_init DEFAULT_MAX_TABLE_SIZE) [many_fields; [short_field 0]] =
      Ret ([b1] ++ [[129]], t2)).
  { eexists _, _. split; [vm_compute; reflexivity|]. eexists. vm_compute; reflexivity. }
  destruct E as (b1 & t1 & E1 & t2 & E2).
  pose proof init_rep as R.
  destruct (encode_seq_spec cs 65536 [many_fields] _ _ R) as (bs & t & E & R' & H).
  { constructor; [|constructor]. apply headers_okb_ok. destruct cs; reflexivity. }
  { apply all_reachableb_ok. vm_compute. reflexivity. }
  rewrite E1 in E. injection E as <- <-.
  specialize (H 65536 65536 (same_tables_refl _ _ _)).
  apply (blocks_le _ _ (enc_profile_rfc 65536)) in H.
  exists ([b1] ++ [[129]]), t2. eexists. split; [exact E2|].
  change [many_fields; [Hdr (str ":authority") []]] with ([many_fields] ++ [[Hdr (str ":authority") []]]).
  eapply blocks_snoc; [exact H|]. apply block_one. apply first_static.
Qed.

Lemma default_client_lost cs : exists bs t,
  encode_seq cs (dt_init DEFAULT_MAX_TABLE_SIZE) [[big_field]; [big_field]] = Ret (bs, t) /\
  forall limit hss st, ~ rfc_blocks (rfc_profile limit) ([], 4096) bs hss st.
Proof.
  pose proof init_rep as R.
  assert (Hok : header_ok cs big_field).
  { assert (Forall (header_ok cs) [big_field]) as Q by (apply headers_okb_ok; destruct cs; vm_compute; reflexivity).
    now inversion Q. }
  assert (A : after_field 65536 [] big_field = [big_field]) by (vm_compute; reflexivity).
  assert (B : after_field 4096 [] big_field = []) by (vm_compute; reflexivity).
  destruct (encode_header_spec cs _ [] 65536 big_field R Hok) as (b1 & t1 & E1 & R1 & H1).
  { apply reachable_fieldb_ok. vm_compute. reflexivity. }
  rewrite A in R1.
  assert (E2 : encode_header cs t1 big_field = Ret ([190], t1)).
  { destruct t1 as [tb sz mx]. pose proof R1 as (Et & Es & Em & _). cbn in Et, Es, Em. subst.
    vm_compute. reflexivity. }
  exists ([b1] ++ [[190]]), t1. split.
  { cbn [encode_seq hpack_encode]. rewrite E1. cbn [obind]. rewrite E2. cbn [obind].
    now rewrite app_nil_r. }
  intros limit. specialize (H1 limit 4096). rewrite B in H1.
  apply block_one in H1. apply (block_le _ _ (enc_profile_rfc limit)) in H1.
  eapply (stuck_blocks limit _ _ [[big_field]] ([], 4096)).
  - econstructor; [exact H1|constructor].
  - apply index_absent_stuck; [lia|reflexivity].
Qed.

(** ** Octets above 127 *)
Lemma high_octet_undefined s : all_bytes s -> Exists (fun c => 128 <= c) s -> 3 < lenZ s ->
  hpack_encode true (dt_init DEFAULT_MAX_TABLE_SIZE) [Hdr (str "server") s] = Undef.
Proof.
  intros Hs He Hl.
  cbn [hpack_encode]. unfold encode_header.
  assert (F : find_index (fun x => bytes_eqb (h_name x) (h_name (Hdr (str "server") s)) &&
      bytes_eqb (h_value x) (h_value (Hdr (str "server") s))) STATIC_TABLE = None).
  { apply find_index_none. apply Forall_forall. intros x Hx. apply andb_false_iff. right.
    apply bytes_eqb_neq. cbn [h_value]. intros E.
    assert (Forall (fun h => Forall (fun c => c < 128) (h_value h)) STATIC_TABLE) as Q.
    { apply Forall_forall. intros y Hy.
      assert (Fb : forallb (fun h => forallb (fun c => c <? 128) (h_value h)) STATIC_TABLE = true)
        by (vm_compute; reflexivity).
      rewrite forallb_forall in Fb. specialize (Fb y Hy). rewrite forallb_forall in Fb.
      apply Forall_forall. intros c Hc. specialize (Fb c Hc). lia. }
    rewrite Forall_forall in Q. specialize (Q x Hx). rewrite E in Q.
    apply Exists_exists in He as (c & Hc & Hc'). rewrite Forall_forall in Q. specialize (Q c Hc). lia. }
  rewrite F. change (dt_find _ _) with (@None Z).
  match goal with |- context [find_index ?p STATIC_TABLE] => change (find_index p STATIC_TABLE) with (Some 53) end.
  unfold write_length_and_string. cbn [h_value]. unfold MAX_PLAIN_TEXT_STRING_LENGTH.
  replace (lenZ s >? 3) with true by lia. rewrite huffman_encode_undef; auto.
Qed.

Lemma string_ok_unsigned s : all_bytes s -> lenZ s < 2 ^ 30 -> string_ok false s.
Proof. intros. split; [auto|split; [auto|easy]]. Qed.

(** Any octets, as far as the strings are concerned. *)
Lemma any_octets cs t l M h : dt_rep t l M -> header_ok cs h ->
  exists bs t', encode_header cs t h = Ret (bs, t').
Proof.
  intros R Hok. unfold encode_header.
  destruct (find_index _ _); [eauto|]. destruct (dt_find t h); [eauto|].
  destruct (dt_insert_rep t l M h R (header_ok_sane _ _ Hok)) as (t' & -> & _).
  destruct Hok as [Hn Hv].
  destruct (write_string_spec cs 0 _ Hv) as (vb & -> & _).
  destruct (write_string_spec cs 0 _ Hn) as (nb & -> & _).
  repeat match goal with |- context [match ?e with Some _ => _ | None => _ end] => destruct e end;
    cbn [obind]; eauto.
Qed.

Lemma encode_header_rep cs t l M h bs t' : dt_rep t l M -> header_ok cs h ->
  encode_header cs t h = Ret (bs, t') -> exists l', dt_rep t' l' M.
Proof.
  intros R Hok. unfold encode_header.
  destruct (dt_insert_rep t l M h R (header_ok_sane _ _ Hok)) as (t1 & -> & R1).
  destruct Hok as [Hn Hv].
  destruct (write_string_spec cs 0 _ Hv) as (vb & -> & _).
  destruct (write_string_spec cs 0 _ Hn) as (nb & -> & _).
  repeat match goal with |- context [match ?e with Some _ => _ | None => _ end] => destruct e end;
    cbn [obind]; intros E; inversion E; subst; eauto.
Qed.

Lemma hpack_encode_defined cs M hs : Forall (header_ok cs) hs -> forall t l, dt_rep t l M ->
  exists b t' l', hpack_encode cs t hs = Ret (b, t') /\ dt_rep t' l' M.
Proof.
  induction 1 as [|h hs Hh _ IH]; intros t l R; cbn [hpack_encode]; [eauto|].
  destruct (any_octets cs t l M h R Hh) as (b & t1 & E). rewrite E. cbn [obind].
  destruct (encode_header_rep cs t l M h b t1 R Hh E) as (l1 & R1).
  destruct (IH _ _ R1) as (b2 & t2 & l2 & -> & R2). cbn [obind]. eauto.
Qed.

Lemma encodable_defined cs hss : Forall (Forall (header_ok cs)) hss ->
  exists blocks t, encode_seq cs (dt_init DEFAULT_MAX_TABLE_SIZE) hss = Ret (blocks, t).
Proof.
  pose proof init_rep as R. revert R. generalize (dt_init DEFAULT_MAX_TABLE_SIZE), (@nil header).
  intros t l R H. revert t l R. induction H as [|hs hss Hh _ IH]; intros t l R; cbn [encode_seq]; [eauto|].
  destruct (hpack_encode_defined cs _ hs Hh t l R) as (b & t1 & l1 & -> & R1). cbn [obind].
  destruct (IH _ _ R1) as (bs & t2 & ->). cbn [obind]. eauto.
Qed.

Definition one_valueb (D : list header) : bool :=
  forallb (fun x => forallb (fun y =>
    negb (bytes_eqb (h_name x) (h_name y)) || existsb (fun s => bytes_eqb (h_name s) (h_name x)) rfc_static
    || header_eqb x y) D) D.
Lemma one_valueb_ok D : one_valueb D = true -> one_value D.
Proof.
  unfold one_valueb. intros H x y Hx Hy E NS. rewrite forallb_forall in H. specialize (H x Hx).
  rewrite forallb_forall in H. specialize (H y Hy).
  apply orb_prop in H as [H|H]; [apply orb_prop in H as [H|H]|].
  - rewrite E in H. assert (bytes_eqb (h_name y) (h_name y) = true) as Q by now apply bytes_eqb_eq.
    rewrite Q in H. easy.
  - exfalso. apply NS. apply existsb_exists in H as (s & Hs & Es). apply bytes_eqb_eq in Es. exists s; auto.
  - now apply header_eqb_eq.
Qed.

Fixpoint NoDupb (D : list header) : bool :=
  match D with [] => true | x :: D' => negb (existsb (header_eqb x) D') && NoDupb D' end.
Lemma NoDupb_ok D : NoDupb D = true -> NoDup D.
Proof.
  induction D as [|x D IH]; intros H; [constructor|]. cbn in H. apply andb_prop in H as [H1 H2].
  constructor; auto. intros Hin. apply negb_true_iff in H1.
  pose proof (existsb_false_forall _ _ H1 _ Hin) as Q.
  assert (header_eqb x x = true) by now apply header_eqb_eq. congruence.
Qed.
