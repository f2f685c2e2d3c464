(** Clients with a smaller table: exactly which responses they can read. *)
From Verif Require Import Base BaseLemmas SpecInt IntCodec IntProofs SpecHuffman Huffman HuffmanProofs
  SpecTable DynTable DynTableProofs StaticTable SpecHpack HpackLemmas HpackDec HpackDecProofs HpackEnc SpecHpackEnc HpackEncProofs
  SpecHpackKept HpackEncLost.

Lemma fit_fit l : forall m M, m <= M -> fit m (fit M l) = fit m l.
Proof.
  induction l as [|h l IH]; intros m M H; [reflexivity|]. cbn [fit].
  destruct (Z.leb_spec (entry_size h) M) as [E|E]; cbn [fit].
  - destruct (Z.leb_spec (entry_size h) m); auto. f_equal. apply IH. lia.
  - destruct (Z.leb_spec (entry_size h) m); auto. lia.
Qed.

Lemma entry_size_pos h : 32 <= entry_size h.
Proof. unfold entry_size, lenZ. lia. Qed.

Lemma fit_cons m h l : fit m (h :: fit m l) = fit m (h :: l).
Proof.
  cbn [fit]. destruct (Z.leb_spec (entry_size h) m); auto. f_equal. apply fit_fit.
  pose proof (entry_size_pos h). lia.
Qed.

Lemma fit_nth m l i h : nth_error l i = Some h ->
  (nth_error (fit m l) i = Some h /\ In h (fit m l)) \/ (length (fit m l) <= i)%nat.
Proof.
  destruct (fit_prefix l m) as (e & E). intros H. destruct (le_lt_dec (length (fit m l)) i) as [L|L]; auto.
  left. rewrite E, nth_error_app1 in H by exact L. split; auto. eapply nth_error_In; eauto.
Qed.

Lemma entry_beyond l i : 0 <= i -> (length l <= Z.to_nat i)%nat -> table_entry l (61 + i + 1) = None.
Proof.
  intros Hi H. unfold table_entry. replace (1 <=? 61 + i + 1) with true by lia.
  rewrite nth_error_app2; change (length rfc_static) with 61%nat; [|lia].
  apply nth_error_None. lia.
Qed.

Lemma client_after m M l h : m <= M ->
  fit m (after_field M l h) = if in_tables l h then fit m l else fit m (h :: fit m l).
Proof.
  intros H. unfold after_field. destruct (in_tables l h); auto. now rewrite fit_fit, fit_cons.
Qed.

Lemma encode_header_kept cs t l M m h : m <= M -> dt_rep t l M -> NoDup l ->
  header_ok cs h -> reachable_field l h ->
  exists bs t', encode_header cs t h = Ret (bs, t') /\ dt_rep t' (after_field M l h) M /\
    ((kept_field m l h /\
      forall limit, rfc_repr (enc_profile limit) (fit m l, m) bs [h] (fit m (after_field M l h), m)) \/
     (~ kept_field m l h /\ forall P rest, stuck P (fit m l, m) (bs ++ rest))).
Proof.
  intros Hm R Hnd Hok Hr. rewrite (client_after _ _ _ _ Hm). unfold after_field.
  pose proof R as (Etab & _). unfold encode_header.
  pose proof (header_ok_sane _ _ Hok) as Hsane. destruct Hok as [Hn Hv].
  destruct (find_index _ STATIC_TABLE) as [i|] eqn:E1.
  { apply static_index_lt in E1 as (Hi & x & Hx & Hp).
    assert (x = h).
    { apply andb_prop in Hp as [P1 P2]. apply bytes_eqb_eq in P1, P2. destruct x, h; cbn in *; congruence. }
    subst x. assert (IS : In h rfc_static) by (eapply nth_error_In; eauto).
    assert (IT : in_tables l h = true) by (apply in_tables_true; now left).
    rewrite IT. eexists _, t. split; [reflexivity|]. split; [exact R|]. left. split; [now left|].
    intros limit. change 128 with (2 ^ 7). rewrite flag_octet by (auto; try change (2 ^ 7) with 128; try change (2 ^ 6) with 64; lia). change (2 ^ 7) with 128.
    apply repr_indexed with (i + 1); [lia| |now apply entry_static].
    apply short_int; auto; try (unfold is_byte; lia); change (2 ^ 7) with 128; lia. }
  assert (NS : ~ In h rfc_static).
  { intros Hin. apply find_index_none in E1. rewrite Forall_forall in E1. rewrite static_table_eq in E1.
    specialize (E1 _ Hin). assert (P : bytes_eqb (h_name h) (h_name h) = true) by now apply bytes_eqb_eq.
    assert (Q : bytes_eqb (h_value h) (h_value h) = true) by now apply bytes_eqb_eq.
    rewrite P, Q in E1. easy. }
  pose proof (dt_find_spec t h) as F. rewrite Etab in F.
  destruct (dt_find t h) as [i|].
  { destruct F as (Hi & Hnth & Hmin).
    assert (Hi64 : i <= 64).
    { destruct Hr as [?|[(k & Hk & Hk')|(Hnin & _)]]; [easy| |].
      - pose proof (first_at_unique _ _ _ Hnth Hmin k Hk'). lia.
      - exfalso. apply Hnin. eapply nth_error_In; eauto. }
    assert (IL : In h l) by (eapply nth_error_In; eauto).
    assert (IT : in_tables l h = true) by (apply in_tables_true; now right).
    rewrite IT. eexists _, t. split; [reflexivity|]. split; [exact R|].
    change (lenZ STATIC_TABLE) with 61.
    change 128 with (2 ^ 7). rewrite flag_octet by (auto; try change (2 ^ 7) with 128; try change (2 ^ 6) with 64; lia). change (2 ^ 7) with 128.
    destruct (fit_nth m _ _ _ Hnth) as [[Hf HIn]|Hout].
    - left. split; [right; now left|]. intros limit.
      apply repr_indexed with (61 + i + 1); [lia| |now apply entry_dynamic].
      apply short_int; auto; try (unfold is_byte; lia); change (2 ^ 7) with 128; lia.
    - right. split.
      + intros [K|[K|[K _]]]; [easy| |easy].
        apply In_nth_error in K as (j & Hj).
        assert (j < length (fit m l))%nat by (apply nth_error_Some; congruence).
        destruct (fit_prefix l m) as (e & E). apply (Hmin j); [lia|].
        rewrite E, nth_error_app1 by assumption. exact Hj.
      + intros P rest. cbn [app]. apply index_absent_stuck; [lia|].
        replace (128 + (61 + i + 1) - 128) with (61 + i + 1) by lia. now apply entry_beyond. }
  assert (IT : in_tables l h = false).
  { destruct (in_tables l h) eqn:IT; auto. apply in_tables_true in IT. tauto. }
  rewrite IT.
  destruct (dt_insert_rep t l M h R Hsane) as (t' & Eins & R').
  match goal with |- context [match ?e with Some _ => _ | None => _ end] =>
    destruct e as [i|] eqn:E2 end.
  { apply static_index_lt in E2 as (Hi & x & Hx & Hp). apply bytes_eqb_eq in Hp.
    destruct (write_string_spec cs 0 _ Hv) as (vb & Evb & _).
    rewrite Evb, Eins. cbn [obind].
    eexists _, t'. split; [reflexivity|]. split; [exact R'|]. left. split.
    { right; right. split; [exact F|]. left. exists x. split; auto. eapply nth_error_In; eauto. }
    intros limit. destruct (write_string_spec cs limit _ Hv) as (vb' & Evb' & Hvb).
    rewrite Evb in Evb'. injection Evb' as <-.
    change 64 with (2 ^ 6). rewrite flag_octet by (auto; try change (2 ^ 7) with 128; try change (2 ^ 6) with 64; lia). change (2 ^ 6) with 64.
    destruct h as [n v]; cbn [h_name h_value] in *. subst n.
    change (64 + (i + 1) :: vb) with ((64 + (i + 1) :: []) ++ vb).
    apply repr_incremental; [lia| |exact Hvb].
    apply name_indexed with (i + 1); [|lia|now apply entry_static].
    apply short_int; auto; try (unfold is_byte; lia); change (2 ^ 6) with 64; lia. }
  assert (NSN : ~ static_name (h_name h)).
  { intros (x & Hin & Hx). apply find_index_none in E2. rewrite Forall_forall in E2.
    rewrite static_table_eq in E2. specialize (E2 _ Hin). apply bytes_eqb_neq in E2. congruence. }
  assert (Hrest : (forall x, In x l -> h_name x <> h_name h) \/
    (exists x rest, l = x :: rest /\ h_name x = h_name h)).
  { destruct Hr as [?|[(k & Hk & Hk')|(_ & [?|?])]]; try easy.
    exfalso. apply F. eapply nth_error_In; eauto. }
  clear Hr.
  pose proof (dt_find_name_spec t (h_name h)) as G. rewrite Etab in G.
  destruct (write_string_spec cs 0 _ Hv) as (vb & Evb & _).
  destruct (dt_find_name t (h_name h)) as [i|].
  { destruct G as (Hi & (x & Hx & Hxn) & Hmin).
    assert (i = 0).
    { destruct Hrest as [Hno|(y & rest & El & Hy)].
      - exfalso. eapply Hno; [eapply nth_error_In; eauto|auto].
      - destruct (Z.eq_dec i 0); auto. exfalso. apply (Hmin 0%nat y); [lia|now rewrite El|auto]. }
    subst i.
    rewrite Evb, Eins. cbn [obind].
    eexists _, t'. split; [reflexivity|]. split; [exact R'|].
    change (u8 (Z.lor (lenZ STATIC_TABLE + 0 + 1) 64) :: vb) with ((126 :: []) ++ vb).
    destruct (fit_nth m _ _ _ Hx) as [[Hf HIn]|Hout].
    - left. split; [right; right; split; eauto|].
      intros limit. destruct (write_string_spec cs limit _ Hv) as (vb' & Evb' & Hvb).
      rewrite Evb in Evb'. injection Evb' as <-.
      destruct h as [n v]; cbn [h_name h_value] in *. subst n.
      apply repr_incremental; [lia| |exact Hvb].
      apply name_indexed with 62; [|lia|now apply (entry_dynamic _ 0)].
      apply short_int; auto; unfold is_byte; try lia; reflexivity.
    - right.
      assert (Enil : fit m l = []) by (destruct (fit m l); [reflexivity|cbn in Hout; lia]).
      split.
      + intros [K|[K|[_ [K|[K|(y & K & _)]]]]]; try contradiction.
        * now rewrite Enil in K.
        * apply (K x); [|exact Hxn]. eapply nth_error_In; eauto.
        * now rewrite Enil in K.
      + intros P rest. rewrite <- app_assoc. apply name_absent_stuck with 62; [lia| |lia|].
        * change 62 with (126 mod 2 ^ 6) at 1. constructor; [now split|reflexivity].
        * rewrite Enil. reflexivity. }
  destruct (write_string_spec cs 0 _ Hn) as (nb & Enb & _).
  rewrite Enb, Evb, Eins. cbn [obind].
  eexists _, t'. split; [reflexivity|]. split; [exact R'|]. left. split.
  { right; right. split; [exact F|]. right; left. intros x Hx En.
    destruct Hrest as [Hno|(y & rest & El & Hy)]; [exact (Hno x Hx En)|].
    apply (G x Hx). congruence. }
  intros limit. destruct (write_string_spec cs limit _ Hv) as (vb' & Evb' & Hvb).
  rewrite Evb in Evb'. injection Evb' as <-.
  destruct (write_string_spec cs limit _ Hn) as (nb' & Enb' & Hnb).
  rewrite Enb in Enb'. injection Enb' as <-.
  change (64 :: nb ++ vb) with ((64 :: nb) ++ vb).
  destruct h as [n v]; cbn [h_name h_value] in *.
  apply repr_incremental; [lia| |exact Hvb].
  change (64 :: nb) with ([64] ++ nb). apply name_literal; [|exact Hnb].
  apply short_int; auto; unfold is_byte; try lia; reflexivity.
Qed.

Lemma kept_block cs m M hs : m <= M -> forall t l, dt_rep t l M -> NoDup l -> Forall (header_ok cs) hs ->
  all_reachable M l hs ->
  exists bs t', hpack_encode cs t hs = Ret (bs, t') /\ dt_rep t' (after_fields M l hs) M /\
    ((all_kept m M l hs /\
      forall limit, rfc_block (rfc_profile limit) (fit m l, m) bs hs (fit m (after_fields M l hs), m)) \/
     (~ all_kept m M l hs /\ forall limit more hs' st, ~ rfc_block (rfc_profile limit) (fit m l, m) (bs ++ more) hs' st)).
Proof.
  intros Hm. induction hs as [|h hs IH]; intros t l R Hnd Hok Hr; cbn [hpack_encode].
  - exists [], t. split; [reflexivity|]. split; [exact R|]. left. split; [exact I|]. intros limit. constructor.
  - inversion Hok as [|? ? Hh Hhs]; subst. destruct Hr as [Hr1 Hr2].
    destruct (encode_header_kept cs t l M m h Hm R Hnd Hh Hr1) as (b1 & t1 & -> & R1 & H1). cbn [obind].
    destruct (IH t1 _ R1 (after_fields_nodup M [h] l Hnd) Hhs Hr2) as (b2 & t2 & -> & R2 & H2). cbn [obind].
    exists (b1 ++ b2), t2. split; [reflexivity|]. split; [exact R2|].
    destruct H1 as [[K1 H1]|[K1 H1]].
    + assert (H1' : forall limit, rfc_repr (rfc_profile limit) (fit m l, m) b1 [h] (fit m (after_field M l h), m)).
      { intros limit. eapply repr_le; [apply enc_profile_rfc|apply H1]. }
      destruct H2 as [[K2 H2]|[K2 H2]].
      * left. split; [now split|]. intros limit. change (h :: hs) with ([h] ++ hs).
        eapply block_cons; [apply H1'|apply H2].
      * right. split; [now intros [_ K]|]. intros limit more hs' st H. rewrite <- app_assoc in H.
        apply (block_rest _ (rfc_profile_functional limit) _ b1 [h] _ (block_one _ _ _ _ _ (H1' limit))) in H as (hb & _ & H).
        now apply H2 in H.
    + right. split; [now intros [K _]|]. intros limit more hs' st H. rewrite <- app_assoc in H.
      destruct (block_inv _ _ _ _ _ H) as [(E1 & _)|(x & hx & sx & y & hy & E1 & _ & Hx & _)];
        destruct (H1 (rfc_profile limit) (b2 ++ more)) as [S1 S2]; [easy|]. eapply S2; eauto.
Qed.

Lemma all_kept_app m M a b : forall l, all_kept m M l (a ++ b) <->
  all_kept m M l a /\ all_kept m M (after_fields M l a) b.
Proof.
  induction a as [|h a IH]; intros l; cbn [app all_kept]; [cbn; tauto|].
  rewrite IH. cbn. tauto.
Qed.

Lemma kept_blocks cs m M hss : m <= M -> forall t l, dt_rep t l M -> NoDup l ->
  Forall (Forall (header_ok cs)) hss -> all_reachable M l (concat hss) ->
  exists bs t', encode_seq cs t hss = Ret (bs, t') /\ dt_rep t' (after_fields M l (concat hss)) M /\
    ((all_kept m M l (concat hss) /\
      forall limit, rfc_blocks (rfc_profile limit) (fit m l, m) bs hss (fit m (after_fields M l (concat hss)), m)) \/
     (~ all_kept m M l (concat hss) /\
      forall limit hss' st, ~ rfc_blocks (rfc_profile limit) (fit m l, m) bs hss' st)).
Proof.
  intros Hm. induction hss as [|hs hss IH]; intros t l R Hnd Hok Hr; cbn [encode_seq concat] in *.
  - exists [], t. split; [reflexivity|]. split; [exact R|]. left. split; [exact I|]. intros limit. constructor.
  - inversion Hok as [|? ? Hh Hhs]; subst. apply all_reachable_app in Hr as [Hr1 Hr2].
    destruct (kept_block cs m M hs Hm t l R Hnd Hh Hr1) as (b1 & t1 & -> & R1 & H1). cbn [obind].
    destruct (IH t1 _ R1 (after_fields_nodup M hs l Hnd) Hhs Hr2) as (b2 & t2 & -> & R2 & H2). cbn [obind].
    exists (b1 :: b2), t2. split; [reflexivity|]. rewrite after_fields_app. split; [exact R2|].
    destruct H1 as [[K1 H1]|[K1 H1]].
    + destruct H2 as [[K2 H2]|[K2 H2]].
      * left. split; [apply all_kept_app; now split|]. intros limit. econstructor; [apply H1|apply H2].
      * right. split; [intros K; apply all_kept_app in K; now destruct K|].
        intros limit hss' st H. inversion H as [|? ? hs' st1 ? hss2 ? Hb Hbs]; subst.
        destruct (block_det _ (rfc_profile_functional limit) _ _ _ _ (H1 limit) _ _ Hb) as [_ Q].
        first [rewrite Q in Hbs|rewrite <- Q in Hbs]; now apply H2 in Hbs.
    + right. split; [intros K; apply all_kept_app in K; now destruct K|].
      intros limit hss' st H. inversion H as [|? ? hs' st1 ? hss2 ? Hb Hbs]; subst. rewrite <- (app_nil_r b1) in Hb. now apply H1 in Hb.
Qed.

Lemma smaller_client cs m hss : m <= 65536 -> Forall (Forall (header_ok cs)) hss ->
  all_reachable 65536 [] (concat hss) ->
  exists bs t, encode_seq cs (dt_init DEFAULT_MAX_TABLE_SIZE) hss = Ret (bs, t) /\
    (all_kept m 65536 [] (concat hss) -> forall limit,
       rfc_blocks (rfc_profile limit) ([], m) bs hss (fit m (dt_table t), m)) /\
    (~ all_kept m 65536 [] (concat hss) -> forall limit hss' st,
       ~ rfc_blocks (rfc_profile limit) ([], m) bs hss' st).
Proof.
  intros Hm Hok Hr.
  destruct (kept_blocks cs m 65536 hss Hm _ _ init_rep (NoDup_nil _) Hok Hr) as (bs & t & E & R & H).
  exists bs, t. split; [exact E|]. pose proof R as (-> & _). cbn [fit] in H.
  destruct H as [[K H]|[K H]]; split; intros K'; try easy; apply H.
Qed.

(** The client of a connection on which every field before [h] was within reach. *)
Lemma lost_response cs m hss before h after later blocks t limit hss' st : m <= 65536 ->
  Forall (Forall (header_ok cs)) (hss ++ (before ++ h :: after) :: later) ->
  all_reachable 65536 [] (concat hss ++ before) ->
  lost_field (after_fields 65536 [] (concat hss ++ before)) h ->
  encode_seq cs (dt_init DEFAULT_MAX_TABLE_SIZE) (hss ++ (before ++ h :: after) :: later) = Ret (blocks, t) ->
  rfc_blocks (rfc_profile limit) ([], m) blocks hss' st ->
  exists got later', hss' = hss ++ (before ++ got) :: later' /\ (forall rest, got <> h :: rest).
Proof.
  intros Hm Hok Hr Hl E H. apply Forall_app in Hok as [Hok1 Hok2].
  inversion Hok2 as [|? ? Hokb _]; subst. apply Forall_app in Hokb as [Hokb Hokh].
  inversion Hokh as [|? ? Hh Hokr]; subst.
  apply all_reachable_app in Hr as [Hr1 Hr2]. rewrite after_fields_app in Hl.
  apply encode_seq_app in E as (ba & ta & bb & Ea & Eb & ->).
  destruct (kept_blocks cs m 65536 hss Hm _ _ init_rep (NoDup_nil _) Hok1 Hr1) as (ba' & ta' & Ea' & Ra & Ha).
  rewrite Ea in Ea'. inversion Ea'; subst ba' ta'. clear Ea'.
  apply blocks_app_inv in H as (h1 & h2 & stm & -> & Hb1 & Hb2).
  destruct Ha as [[_ Ha]|[_ Ha]]; [|now apply Ha in Hb1]. specialize (Ha limit).
  destruct (rfc_reading_unique _ _ _ _ _ _ _ Ha Hb1) as [-> ->].
  cbn [encode_seq] in Eb.
  destruct (hpack_encode cs ta (before ++ h :: after)) as [[b t1]| | |] eqn:Eh; try easy. cbn [obind] in Eb.
  destruct (encode_seq cs t1 later) as [[bs t2]| | |]; try easy. cbn [obind] in Eb. inversion Eb; subst bb t2. clear Eb.
  inversion Hb2 as [|? ? hs st1 ? hss2 ? Hb3 _]; subst.
  exists (skipn (length before) hs), hss2.
  apply hpack_encode_app in Eh as (bb & tb & bh & Eb & Eh & ->).
  pose proof (after_fields_nodup 65536 (concat hss) _ (NoDup_nil _)) as Nd.
  destruct (kept_block cs m 65536 before Hm _ _ Ra Nd Hokb Hr2) as (bb' & tb' & Eb' & Rb & Hbb).
  rewrite Eb in Eb'. inversion Eb'; subst bb' tb'. clear Eb'.
  destruct Hbb as [[_ Hbb]|[_ Hbb]]; [|now apply Hbb in Hb3]. specialize (Hbb limit).
  destruct (block_rest _ (rfc_profile_functional limit) _ _ _ _ Hbb _ _ _ Hb3) as (got & -> & Hg).
  rewrite skipn_app, skipn_all, Nat.sub_diag. cbn [app skipn].
  split; [reflexivity|]. intros rest ->.
  cbn [hpack_encode] in Eh.
  destruct (encode_header cs tb h) as [[b1 tc]| | |] eqn:E1; try easy. cbn [obind] in Eh.
  destruct (hpack_encode cs tc after) as [[b2 td]| | |] eqn:E2; try easy. cbn [obind] in Eh. inversion Eh; subst bh.
  destruct (encode_header_rep cs _ _ _ h _ _ Rb Hh E1) as (lc & Rc).
  pose proof (block_start cs _ _ _ _ _ _ Rc Hokr E2) as Hs.
  destruct (block_inv _ _ _ _ _ Hg) as [(_ & F & _)|(a & ha & sta & c & hc & Ec & F & Hx & _)]; [easy|].
  destruct (lost_header cs _ _ _ h _ _ Rb ltac:(lia)
    (after_fields_nodup _ _ _ Nd) Hh Hl E1 _ _ _ _ _ _ _ Hs Ec Hx)
    as (h' & -> & Hne).
  cbn in F. injection F as F _. congruence.
Qed.

(** ** Deciding [all_kept] *)
Definition kept_fieldb (m : Z) (dyn : list header) (h : header) : bool :=
  let named l := existsb (fun x => bytes_eqb (h_name x) (h_name h)) l in
  existsb (header_eqb h) rfc_static || existsb (header_eqb h) (fit m dyn) ||
  (negb (existsb (header_eqb h) dyn) && (named rfc_static || negb (named dyn) || named (fit m dyn))).

Lemma in_headers h l : existsb (header_eqb h) l = true <-> In h l.
Proof.
  rewrite existsb_exists. split.
  - intros (x & Hx & E). apply header_eqb_eq in E. now subst.
  - intros H. exists h. split; auto. now apply header_eqb_eq.
Qed.

Lemma named_in n l : existsb (fun x => bytes_eqb (h_name x) n) l = true <-> exists x, In x l /\ h_name x = n.
Proof.
  rewrite existsb_exists. split; intros (x & Hx & E); exists x; split; auto; now apply bytes_eqb_eq.
Qed.

Lemma kept_fieldb_iff m dyn h : kept_fieldb m dyn h = true <-> kept_field m dyn h.
Proof.
  unfold kept_fieldb, kept_field. cbv zeta.
  rewrite !orb_true_iff, andb_true_iff, !orb_true_iff, !negb_true_iff, <- !not_true_iff_false, !in_headers, !named_in.
  assert (N : ~ (exists x, In x dyn /\ h_name x = h_name h) <-> (forall x, In x dyn -> h_name x <> h_name h)).
  { split; [intros N x Hx E; apply N; eauto|intros N (x & Hx & E); exact (N x Hx E)]. }
  unfold static_name. tauto.
Qed.

Fixpoint all_keptb (m max : Z) (dyn : list header) (hs : list header) : bool :=
  match hs with
  | [] => true
  | h :: rest => kept_fieldb m dyn h && all_keptb m max (after_field max dyn h) rest
  end.

Lemma all_keptb_iff m M hs : forall l, all_keptb m M l hs = true <-> all_kept m M l hs.
Proof.
  induction hs as [|h hs IH]; intros l; cbn [all_keptb all_kept]; [tauto|].
  now rewrite andb_true_iff, kept_fieldb_iff, IH.
Qed.
