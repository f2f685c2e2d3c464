(** Proofs about HpackTrace.v. *)
From Verif Require Import Base BaseLemmas SpecInt IntCodec IntProofs SpecHuffman Huffman HuffmanProofs
  SpecTable DynTable DynTableProofs StaticTable SpecHpack HpackLemmas HpackDec HpackDecProofs Http Conn AccessLog Messages MessagesProofs DebugMessages DebugProofs SpecDebug SpecConn ReasonsProofs HpackTrace SpecHpackTrace.

Lemma representation_eq b : is_byte b ->
  trace (str "header type: " ++ type_text (from_byte b) ++ str ", byte: " ++ upper_hex_text b) = representation b.
Proof.
  intros H. unfold trace, representation. apply (f_equal (fun s => Msg LTrace (str "header type: " ++ s))).
  assert (E : (if list_eq_dec Z.eq_dec (type_text (from_byte b) ++ str ", byte: " ++ upper_hex_text b)
                 (kind_of b ++ str ", byte: 0x" ++ HEX_pair b) then true else false) = true).
  { revert b H. apply octet_sweep. vm_compute. reflexivity. }
  now destruct (list_eq_dec _ _ _).
Qed.

Lemma header_told t l m i h : dt_rep t l m -> m <= 65536 -> 1 <= i < 2 ^ 32 -> table_entry l i = Some h ->
  indexed_header_trace t i = [entry_line i h] /\ indexed_name_trace t i = [name_line i (h_name h)].
Proof.
  intros R Hm Hi E. pose proof (read_indexed_header_spec t l m i R Hm Hi) as S. rewrite E in S.
  unfold read_indexed_header in S. unfold indexed_header_trace, indexed_name_trace, entry_line, name_line, place. cbv zeta.
  change (2 ^ 32) with 4294967296 in Hi. change (lenZ STATIC_TABLE) with 61 in *.
  assert (U : u64 (i - 1) = i - 1) by (unfold u64; lia). rewrite U in *.
  destruct (i - 1 <? 61) eqn:L.
  - replace (i <=? 61) with true by lia. destruct (nth_error STATIC_TABLE (Z.to_nat (i - 1))) as [h'|]; [|discriminate]. injection S as ->.
    unfold trace. rewrite <- !app_assoc. split; reflexivity.
  - replace (i <=? 61) with false by lia. assert (U2 : u64 (i - 1 - 61) = i - 62) by (unfold u64; lia). rewrite U2 in *.
    destruct (i - 62 >=? dt_count t); [discriminate|]. destruct (dt_get t (i - 62)) as [h'| | |]; try discriminate. injection S as ->.
    unfold trace. rewrite <- !app_assoc. split; reflexivity.
Qed.
Lemma header_refused t l m i : dt_rep t l m -> m <= 65536 -> 1 <= i < 2 ^ 32 -> table_entry l i = None ->
  exists e e', indexed_header_trace t i = [err e] /\ indexed_name_trace t i = [err e'].
Proof.
  intros R Hm Hi E. pose proof (read_indexed_header_spec t l m i R Hm Hi) as S. rewrite E in S.
  unfold read_indexed_header in S. unfold indexed_header_trace, indexed_name_trace, lookup_messages. cbv zeta.
  destruct (u64 (i - 1) <? lenZ STATIC_TABLE).
  - destruct (nth_error _ _); discriminate.
  - destruct (_ >=? dt_count t).
    + eexists _, _. split; reflexivity.
    + destruct (dt_get t _); discriminate.
Qed.

Definition traces (ms : list message) : Prop := Forall (fun m => m_level m = LTrace) ms.
(** The messages for a representation that cannot be read, after the first. *)
Definition refusal (ms : list message) : Prop := exists pre e, ms = pre ++ [Msg LErr e] /\ traces pre.

Lemma refusal_here e : refusal [err e].
Proof. exists [], e. split; [reflexivity|constructor]. Qed.
Lemma refusal_cons m ms : m_level m = LTrace -> refusal ms -> refusal (m :: ms).
Proof. intros H (pre & e & -> & Hp). exists (m :: pre), e. split; [reflexivity|]. now constructor. Qed.
Lemma refusal_fits A ms e : @fits A ms (Error e) -> refusal ms.
Proof. intros ([lv tx] & -> & H). cbn in H. subst lv. apply refusal_here. Qed.

Lemma index_bound N used i : 1 <= N <= 8 -> p_rfc_int SP N used i -> 0 <= i < 2 ^ 32.
Proof. intros HN [Hi [_ Hv]]. apply rfc_int_nonneg in Hi; [lia|lia]. Qed.

Section Dec.
  Let T := the_tree.

  Lemma indexed_told t l m r : dt_rep t l m -> m <= 65536 -> all_bytes r ->
    match decode_indexed_field t r with
    | Ret (Val h, rest) => exists used i, r = used ++ rest /\ p_rfc_int SP 7 used i /\ table_entry l i = Some h /\ indexed_field_trace t r = [entry_line i h]
    | Ret (Error _, _) | Undef => refusal (indexed_field_trace t r)
    | _ => False
    end.
  Proof.
    intros R Hm Hr. unfold decode_indexed_field, indexed_field_trace.
    destruct (int_decode_cases 7 r ltac:(lia) Hr) as [(i & used & r1 & -> & E & Hi)|(e & rest & E & Hno)].
    2:{ rewrite E. apply refusal_here. }
    pose proof (index_bound 7 used i ltac:(lia) Hi) as Hib. destruct (i <? 1) eqn:E1; [apply refusal_here|].
    rewrite (read_indexed_header_spec t l m i R Hm) by lia. cbn [obind]. destruct (table_entry l i) as [h|] eqn:Et.
    - exists used, i. repeat split; auto; try apply Hi. apply (header_told t l m i h R Hm); [lia|exact Et].
    - destruct (header_refused t l m i R Hm ltac:(lia) Et) as (e1 & e2 & -> & _). apply refusal_here.
  Qed.

  Lemma literal_told N t l m r : N = 6 \/ N = 4 -> dt_rep t l m -> m <= 65536 -> all_bytes r ->
    match decode_literal_field T N t r with
    | Ret (Val h, rest) => exists nb vb ms, r = nb ++ vb ++ rest /\ told_name N l nb (h_name h) ms /\ rfc_string SP vb (h_value h) /\
        literal_field_trace T N t r = ms ++ [field_line h]
    | Ret (Error _, _) | Undef => refusal (literal_field_trace T N t r)
    | _ => False
    end.
  Proof.
    intros HN R Hm Hr. unfold decode_literal_field, literal_field_trace.
    destruct (int_decode_cases N r ltac:(lia) Hr) as [(i & used & r1 & -> & E & Hi)|(e & rest & E & Hno)].
    2:{ rewrite E. apply refusal_here. }
    pose proof (index_bound N used i ltac:(lia) Hi) as Hib.
    assert (Hr1 : all_bytes r1) by (rewrite E in Hr; apply all_bytes_app in Hr; tauto).
    assert (K : forall nb n r2 ms, r = nb ++ r2 -> told_name N l nb n ms -> traces ms -> all_bytes r2 ->
      match (let! (value, r3) := read_length_and_string T r2 in
             match value with Error _ => Ret (Error ProtocolError, r3) | Val v => Ret (Val (Hdr n v), r3) end) with
      | Ret (Val h, rest) => exists nb vb ms', r = nb ++ vb ++ rest /\ told_name N l nb (h_name h) ms' /\ rfc_string SP vb (h_value h) /\
          ms ++ read_length_and_string_messages T r2 ++
            match read_length_and_string T r2 with Ret (Val v, _) => [trace (str "decoded header: name: " ++ n ++ str ", value: " ++ v)] | _ => [] end = ms' ++ [field_line h]
      | Ret (Error _, _) | Undef => refusal (ms ++ read_length_and_string_messages T r2 ++
            match read_length_and_string T r2 with Ret (Val v, _) => [trace (str "decoded header: name: " ++ n ++ str ", value: " ++ v)] | _ => [] end)
      | _ => False
      end).
    { intros nb n r2 ms En Hn Hms Hr2. destruct (read_string_outcome r2 Hr2) as (res & rest & Eo & _ & Hres). fold T in Eo.
      pose proof (read_fits T r2 res rest Eo) as F. rewrite Eo. cbn [obind]. destruct res as [v|e].
      - destruct Hres as (vb & Ev & Hv). exists nb, vb, ms. cbn [h_name h_value]. repeat split; auto; [now rewrite En, Ev|]. now rewrite F.
      - rewrite app_nil_r. apply refusal_fits in F as (pre & x & -> & Hp). exists (ms ++ pre), x. split; [now rewrite app_assoc|]. now apply Forall_app. }
    cbv zeta. destruct (i =? 0) eqn:E0.
    - apply Z.eqb_eq in E0. subst i. destruct (read_string_outcome r1 Hr1) as (res & r2 & Eo & _ & Hres). fold T in Eo.
      pose proof (read_fits T r1 res r2 Eo) as F. rewrite Eo. cbn [obind]. destruct res as [n|e].
      + destruct Hres as (sb & Es & Hs). rewrite F. cbn [List.app].
        apply (K (used ++ sb) n r2 [literal_line 0 (str "true")]).
        * rewrite <- app_assoc. now rewrite E, Es.
        * now apply told_new_name.
        * now repeat constructor.
        * rewrite Es in Hr1. apply all_bytes_app in Hr1. tauto.
      + apply refusal_cons; [reflexivity|]. rewrite app_nil_r. now apply refusal_fits in F.
    - rewrite (read_indexed_header_name_spec t l m i R Hm) by lia. cbn [obind]. destruct (table_entry l i) as [h|] eqn:Et.
      + destruct (header_told t l m i h R Hm ltac:(lia) Et) as [_ ->]. cbn [List.app].
        apply (K used (h_name h) r1 [literal_line i (str "false"); name_line i (h_name h)]); auto.
        * eapply told_indexed_name; eauto. lia.
        * now repeat constructor.
      + destruct (header_refused t l m i R Hm ltac:(lia) Et) as (e1 & e2 & _ & ->). apply refusal_cons; [reflexivity|]. apply refusal_here.
  Qed.

  Lemma size_told t l m r : dt_rep t l m -> all_bytes r ->
    match decode_size_update t r with
    | Ret (Val t', rest) => exists used n, r = used ++ rest /\ p_rfc_int SP 5 used n /\ n <= 65536 /\ dt_rep t' (fit n l) n /\
        size_update_trace r = [Msg LTrace (str "dynamic table size updated to: " ++ to_string n)]
    | Ret (Error _, _) => refusal (size_update_trace r)
    | _ => False
    end.
  Proof.
    intros R Hr. unfold decode_size_update, size_update_trace, decode_size_update_messages.
    destruct (int_decode_cases 5 r ltac:(lia) Hr) as [(n & used & r1 & -> & E & Hi)|(e & rest & E & Hno)].
    - pose proof (index_bound 5 used n ltac:(lia) Hi) as Hn. unfold HARD_TABLE_SIZE_LIMIT. destruct (n >? 65536) eqn:E1; [apply refusal_here|].
      destruct (dt_set_max_rep t l m n R) as (t' & -> & R').
      { change (2 ^ 63) with 9223372036854775808. change (2 ^ 32) with 4294967296 in Hn. lia. }
      cbn [obind]. exists used, n. repeat split; auto; try apply Hi; try apply R'. lia.
    - rewrite E. apply refusal_here.
  Qed.

  Lemma insert_told t l m h : dt_rep t l m -> header_sane h -> insert_debug t h = [stored_line m h].
  Proof.
    intros (_ & _ & Em & _) H. unfold insert_debug, stored_line. cbv zeta. rewrite (entry_size_eq h H), Em.
    rewrite Z.gtb_ltb. destruct (m <? entry_size h); reflexivity.
  Qed.

  Definition told_outcome (l : list header) (m : Z) (r : bytes) (hdrs : list header) (o : out (expected frame_error (list header) * dyn_table)) (trace : list message) : Prop :=
    exists r1 hs l' m' ms, told_block (l, m) r1 hs (l', m') ms /\
      ((r1 = r /\ trace = ms /\ exists t', o = Ret (Val (hdrs ++ hs), t') /\ dt_rep t' l' m') \/
       (exists first r2 ms2, r = r1 ++ first :: r2 /\ trace = ms ++ representation first :: ms2 /\ refusal ms2 /\
          ((exists t', o = Ret (Error ProtocolError, t') /\ dt_rep t' l' m') \/ o = Undef))).

  Lemma told_name_head N l b nb n ms r rest : told_name N l nb n ms -> b :: r = nb ++ rest -> exists nb', nb = b :: nb'.
  Proof.
    intros H E. assert (H' : rfc_name SP N l nb n) by (destruct H; econstructor; eauto).
    destruct (name_nonempty _ _ _ _ _ H') as (x & nb' & -> & _). cbn in E. injection E as <- _. eauto.
  Qed.
  Lemma told_name_small N t l m nb n ms : dt_rep t l m -> m <= 65536 -> told_name N l nb n ms -> lenZ n <= 65536.
  Proof.
    intros R Hm H. destruct H as [ib i h Hi Hz Ht|ib sb s Hi Hs].
    - apply table_entry_in in Ht. apply in_app_or in Ht as [Ht|Ht].
      + pose proof static_small as S. rewrite Forall_forall in S. specialize (S _ Ht). unfold small_header in S. lia.
      + pose proof R as (_ & _ & _ & _ & Hsz). apply table_size_in in Ht. unfold entry_size in Ht. pose proof (lenZ_nonneg (h_value h)). lia.
    - apply string_small in Hs. lia.
  Qed.

  Lemma loop_told fuel : forall t l m r hdrs, dt_rep t l m -> m <= 65536 -> all_bytes r -> (length r <= fuel)%nat ->
    told_outcome l m r hdrs (decode_loop T fuel t r hdrs) (decode_loop_trace T fuel t r).
  Proof.
    induction fuel as [|fuel IH]; intros t l m r hdrs R Hm Hr Hf.
    { destruct r as [|b r]; [|cbn in Hf; lia]. exists [], [], l, m, []. split; [constructor|]. left. repeat split. exists t. rewrite app_nil_r. auto. }
    destruct r as [|b r'].
    { exists [], [], l, m, []. split; [constructor|]. left. repeat split. exists t. rewrite app_nil_r. auto. }
    cbn [decode_loop decode_loop_trace]. set (r := b :: r') in *.
    assert (Hb : is_byte b) by (apply all_bytes_cons in Hr; tauto). rewrite (representation_eq b Hb).
    assert (STEP : forall u rest hs t1 l1 m1 ms, r = (b :: u) ++ rest -> told_repr (l, m) (b :: u) hs (l1, m1) (representation b :: ms) -> dt_rep t1 l1 m1 -> m1 <= 65536 ->
       told_outcome l m r hdrs (decode_loop T fuel t1 rest (hdrs ++ hs)) (representation b :: ms ++ decode_loop_trace T fuel t1 rest)).
    { intros u rest hs t1 l1 m1 ms E Hrep R1 Hm1.
      assert (Hrest : all_bytes rest) by (rewrite E in Hr; apply all_bytes_app in Hr; tauto).
      assert (Hlen : (length rest <= fuel)%nat).
      { apply (f_equal (@length Z)) in E. rewrite app_length in E. cbn [length] in E. lia. }
      destruct (IH t1 l1 m1 rest (hdrs ++ hs) R1 Hm1 Hrest Hlen) as (r1 & hs2 & l2 & m2 & ms2 & Hbl & [(-> & -> & t2 & Eo & R2)|(f & r2 & ms3 & Er & -> & Hre & Ho)]).
      - exists ((b :: u) ++ rest), (hs ++ hs2), l2, m2, ((representation b :: ms) ++ ms2). split; [econstructor; eauto|]. left.
        repeat split; auto. exists t2. rewrite app_assoc. auto.
      - exists ((b :: u) ++ r1), (hs ++ hs2), l2, m2, ((representation b :: ms) ++ ms2). split; [econstructor; eauto|]. right.
        exists f, r2, ms3. repeat split; auto; [now rewrite E, Er, <- app_assoc|]. cbn [List.app]. now rewrite <- app_assoc. }
    assert (FAIL : forall o ms, refusal ms -> ((exists t', o = Ret (Error ProtocolError, t') /\ dt_rep t' l m) \/ o = Undef) -> told_outcome l m r hdrs o (representation b :: ms)).
    { intros o ms Hre Ho. exists [], [], l, m, []. split; [constructor|]. right. exists b, r', ms. repeat split; auto. }
    assert (PE : forall A (x : out (expected frame_error A * reader)), True) by auto. clear PE.
    assert (LIT : forall N, N = 6 \/ N = 4 -> forall e rest, decode_literal_field T N t r = Ret (Error e, rest) -> e = ProtocolError).
    { intros N HN e rest E. destruct (decode_literal_outcome N t l m r HN R Hm Hr) as [(E' & _)|(_ & res & rs & E' & _ & Hres)]; unfold T in *; rewrite E in E'; [discriminate|].
      injection E' as <- <-. apply Hres. }
    destruct (from_byte_cases b Hb) as [(Hc & ->)|[(Hc & ->)|[(Hc & ->)|[(Hc & ->)|(Hc & ->)]]]].
    - pose proof (indexed_told t l m r R Hm Hr) as H. pose proof (decode_indexed_outcome t l m r R Hm Hr) as O.
      destruct (decode_indexed_field t r) as [[[h|e] rest]| | |]; cbn [obind]; try easy.
      + destruct H as (used & i & E & Hi & Ht & ->).
        assert (Hu : exists u', used = b :: u') by (destruct Hi as [Hi _]; inversion Hi; subst used; cbn in E; injection E; intros; subst; eauto).
        destruct Hu as (u' & ->). apply (STEP u' rest [h] t l m [entry_line i h]); auto. eapply told_indexed; eauto. unfold is_byte in Hb. lia.
      + destruct O as [(O & _)|(_ & res & rs & us & i & O & _ & _ & Hres)]; [discriminate|]. injection O as <- <-. destruct Hres as [-> _].
        rewrite app_nil_r. apply FAIL; eauto.
      + rewrite app_nil_r. apply FAIL; eauto.
    - pose proof (literal_told 6 t l m r ltac:(auto) R Hm Hr) as H. specialize (LIT 6 ltac:(auto)).
      destruct (decode_literal_field T 6 t r) as [[[h|e] rest]| | |]; cbn [obind]; try easy.
      + destruct H as (nb & vb & ms & E & Hn & Hv & ->).
        assert (Hs : header_sane h).
        { unfold header_sane, entry_size. apply (told_name_small _ t l m) in Hn; auto. apply string_small in Hv. change (2 ^ 63) with 9223372036854775808. lia. }
        destruct (dt_insert_rep t l m h R Hs) as (t1 & -> & R1). cbn [obind]. rewrite (insert_told t l m h R Hs).
        destruct (told_name_head _ _ b _ _ _ r' (vb ++ rest) Hn E) as (nb' & ->). destruct h as [n v]. cbn [h_name h_value] in *.
        rewrite (app_assoc (ms ++ _)).
        apply (STEP (nb' ++ vb) rest [Hdr n v] t1 (fit m (Hdr n v :: l)) m ((ms ++ [field_line (Hdr n v)]) ++ [stored_line m (Hdr n v)])); auto.
        * change ((b :: nb' ++ vb) ++ rest) with (((b :: nb') ++ vb) ++ rest). now rewrite <- app_assoc.
        * rewrite <- app_assoc. change (b :: nb' ++ vb) with ((b :: nb') ++ vb). apply (told_incremental l m b nb' n vb v ms); auto.
      + rewrite (LIT e rest eq_refl), app_nil_r. apply FAIL; eauto.
      + rewrite app_nil_r. apply FAIL; eauto.
    - pose proof (size_told t l m r R Hr) as H. pose proof (decode_size_update_outcome t l m r R Hr) as (res & rs & us & O & _ & Hres).
      rewrite O in *. cbn [obind] in *. destruct res as [t1|e].
      + destruct H as (used & n & E & Hi & Hn & R1 & ->).
        assert (Hu : exists u', used = b :: u') by (destruct Hi as [Hi _]; inversion Hi; subst used; cbn in E; injection E; intros; subst; eauto).
        destruct Hu as (u' & ->).
        pose proof (STEP u' rs [] t1 (fit n l) n [Msg LTrace (str "dynamic table size updated to: " ++ to_string n)] E) as S. rewrite app_nil_r in S. apply S; auto.
        now apply told_size_update.
      + destruct Hres as [-> _]. rewrite app_nil_r. apply FAIL; eauto.
    - pose proof (literal_told 4 t l m r ltac:(auto) R Hm Hr) as H. specialize (LIT 4 ltac:(auto)).
      destruct (decode_literal_field T 4 t r) as [[[h|e] rest]| | |]; cbn [obind]; try easy.
      + destruct H as (nb & vb & ms & E & Hn & Hv & ->).
        destruct (told_name_head _ _ b _ _ _ r' (vb ++ rest) Hn E) as (nb' & ->). destruct h as [n v]. cbn [h_name h_value] in *.
        apply (STEP (nb' ++ vb) rest [Hdr n v] t l m (ms ++ [field_line (Hdr n v)])); auto.
        * change ((b :: nb' ++ vb) ++ rest) with (((b :: nb') ++ vb) ++ rest). now rewrite <- app_assoc.
        * change (b :: nb' ++ vb) with ((b :: nb') ++ vb). apply (told_literal l m b nb' n vb v ms); auto. lia.
      + rewrite (LIT e rest eq_refl), app_nil_r. apply FAIL; eauto.
      + rewrite app_nil_r. apply FAIL; eauto.
    - pose proof (literal_told 4 t l m r ltac:(auto) R Hm Hr) as H. specialize (LIT 4 ltac:(auto)).
      destruct (decode_literal_field T 4 t r) as [[[h|e] rest]| | |]; cbn [obind]; try easy.
      + destruct H as (nb & vb & ms & E & Hn & Hv & ->).
        destruct (told_name_head _ _ b _ _ _ r' (vb ++ rest) Hn E) as (nb' & ->). destruct h as [n v]. cbn [h_name h_value] in *.
        apply (STEP (nb' ++ vb) rest [Hdr n v] t l m (ms ++ [field_line (Hdr n v)])); auto.
        * change ((b :: nb' ++ vb) ++ rest) with (((b :: nb') ++ vb) ++ rest). now rewrite <- app_assoc.
        * change (b :: nb' ++ vb) with ((b :: nb') ++ vb). apply (told_literal l m b nb' n vb v ms); auto. unfold is_byte in Hb. lia.
      + rewrite (LIT e rest eq_refl), app_nil_r. apply FAIL; eauto.
      + rewrite app_nil_r. apply FAIL; eauto.
  Qed.
End Dec.

(** ** Levels *)
Lemma at_debug_app a b : at_debug (a ++ b) = at_debug a ++ at_debug b.
Proof. apply filter_app. Qed.
Lemma loud_at_debug l : loud l -> at_debug l = l.
Proof.
  unfold loud. intros <-. induction l as [|[[] tx] l IH]; cbn; auto; f_equal; exact IH.
Qed.
Lemma at_debug_insert t h : at_debug (insert_debug t h) = insert_debug t h.
Proof. unfold insert_debug. cbv zeta. now destruct (_ >? _). Qed.
Lemma at_debug_header t i : at_debug (indexed_header_trace t i) = lookup_messages (str "header") t i.
Proof.
  unfold indexed_header_trace. cbv zeta. destruct (u64 (i - 1) <? lenZ STATIC_TABLE) eqn:E.
  - unfold lookup_messages. rewrite E. now destruct (nth_error _ _).
  - destruct (_ >=? dt_count t) eqn:E2.
    + apply loud_at_debug, loud_lookup.
    + unfold lookup_messages. cbv zeta. rewrite E, E2. now destruct (dt_get t _).
Qed.
Lemma at_debug_name t i : at_debug (indexed_name_trace t i) = lookup_messages (str "header name") t i.
Proof.
  unfold indexed_name_trace. cbv zeta. destruct (u64 (i - 1) <? lenZ STATIC_TABLE) eqn:E.
  - unfold lookup_messages. rewrite E. now destruct (nth_error _ _).
  - destruct (_ >=? dt_count t) eqn:E2.
    + apply loud_at_debug, loud_lookup.
    + unfold lookup_messages. cbv zeta. rewrite E, E2. now destruct (dt_get t _).
Qed.
Lemma at_debug_indexed t r : at_debug (indexed_field_trace t r) = decode_indexed_field_messages t r.
Proof.
  unfold indexed_field_trace, decode_indexed_field_messages. destruct (int_decode 7 r) as [[i|e] r1]; [|reflexivity].
  destruct (i <? 1); [reflexivity|apply at_debug_header].
Qed.
Lemma at_debug_literal T N t r : at_debug (literal_field_trace T N t r) = decode_literal_field_messages T N t r.
Proof.
  unfold literal_field_trace, decode_literal_field_messages. destruct (int_decode N r) as [[i|e] r1]; [|reflexivity]. cbv zeta.
  assert (V : forall n r2, at_debug (read_length_and_string_messages T r2 ++
    match read_length_and_string T r2 with Ret (Val v, _) => [trace (str "decoded header: name: " ++ n ++ str ", value: " ++ v)] | _ => [] end) = read_length_and_string_messages T r2).
  { intros n r2. rewrite at_debug_app, (loud_at_debug _ (loud_string T r2)). destruct (read_length_and_string T r2) as [[[v|e] r3]| | |]; apply app_nil_r. }
  change (at_debug (trace ?a :: ?l)) with (at_debug l).
  destruct (i =? 0).
  - transitivity (at_debug (read_length_and_string_messages T r1 ++ match read_length_and_string T r1 with
      | Ret (Val n, r2) => read_length_and_string_messages T r2 ++
          match read_length_and_string T r2 with Ret (Val v, _) => [trace (str "decoded header: name: " ++ n ++ str ", value: " ++ v)] | _ => [] end | _ => [] end)); [reflexivity|].
    rewrite at_debug_app, (loud_at_debug _ (loud_string T r1)). f_equal.
    destruct (read_length_and_string T r1) as [[[v|e] r3]| | |]; try reflexivity. apply V.
  - transitivity (at_debug (indexed_name_trace t i ++ match read_indexed_header_name t i with
      | Ret (Val n) => read_length_and_string_messages T r1 ++
          match read_length_and_string T r1 with Ret (Val v, _) => [trace (str "decoded header: name: " ++ n ++ str ", value: " ++ v)] | _ => [] end | _ => [] end)); [reflexivity|].
    rewrite at_debug_app, at_debug_name. f_equal. destruct (read_indexed_header_name t i) as [[n|e]| | |]; try reflexivity. apply V.
Qed.
Lemma at_debug_size r : at_debug (size_update_trace r) = decode_size_update_messages r.
Proof.
  unfold size_update_trace. rewrite at_debug_app, (loud_at_debug _ (loud_size r)).
  destruct (int_decode 5 r) as [[i|e] r1]; [destruct (i >? _)|]; apply app_nil_r.
Qed.
Lemma at_debug_loop T fuel : forall t r, at_debug (decode_loop_trace T fuel t r) = decode_loop_debug T fuel t r.
Proof.
  induction fuel as [|f IH]; intros t [|b r]; try reflexivity. cbn [decode_loop_trace decode_loop_debug].
  match goal with |- at_debug (trace ?a :: ?l) = _ => change (at_debug (trace a :: l)) with (at_debug l) end.
  destruct (from_byte b); try reflexivity; rewrite at_debug_app.
  - rewrite at_debug_indexed. f_equal. destruct (decode_indexed_field t (b :: r)) as [[[h|e] r1]| | |]; auto.
  - rewrite at_debug_literal. f_equal. destruct (decode_literal_field T 6 t (b :: r)) as [[[h|e] r1]| | |]; auto.
    destruct (dt_insert t h); auto. now rewrite at_debug_app, at_debug_insert, IH.
  - rewrite at_debug_size. f_equal. destruct (decode_size_update t (b :: r)) as [[[h|e] r1]| | |]; auto.
  - rewrite at_debug_literal. f_equal. destruct (decode_literal_field T 4 t (b :: r)) as [[[h|e] r1]| | |]; auto.
  - rewrite at_debug_literal. f_equal. destruct (decode_literal_field T 4 t (b :: r)) as [[[h|e] r1]| | |]; auto.
Qed.

(** ** The messages that name fields *)
Definition field_message (h : header) (m : message) : Prop := m = field_line h \/ exists i, 1 <= i /\ m = entry_line i h.
Lemma not_field_representation b : names_field (representation b) = false.
Proof. reflexivity. Qed.
Lemma not_field_name N l nb n ms : told_name N l nb n ms -> filter names_field ms = [].
Proof. destruct 1; reflexivity. Qed.
Lemma not_field_stored m h : names_field (stored_line m h) = false.
Proof. unfold stored_line. destruct (m <? entry_size h); reflexivity. Qed.
Lemma told_fields st r hs st' ms : told_block st r hs st' ms -> Forall2 field_message hs (filter names_field ms).
Proof.
  induction 1 as [st|st bs hs st1 ms bs2 hs2 st2 ms2 H _ IH]; [constructor|]. rewrite filter_app. apply Forall2_app; [|exact IH].
  destruct H as [dyn max f rest i h Hf Hi Ht|dyn max f rest n vb v ms Hf Hn Hv|dyn max f rest n vb v ms Hf Hn Hv|dyn max f rest n Hf Hi Hl];
    cbn [filter]; rewrite not_field_representation.
  - change (names_field (entry_line i h)) with true. constructor; [|constructor]. right. exists i. split; [|reflexivity].
    unfold table_entry in Ht. destruct (1 <=? i) eqn:E; [lia|discriminate].
  - rewrite filter_app, (not_field_name _ _ _ _ _ Hn). cbn [List.app filter]. rewrite not_field_stored. change (names_field (field_line _)) with true.
    constructor; [now left|constructor].
  - rewrite filter_app, (not_field_name _ _ _ _ _ Hn). cbn [List.app filter]. change (names_field (field_line _)) with true. constructor; [now left|constructor].
  - change (names_field _) with false. constructor.
Qed.

(** ** Reading back *)
Definition no_comma (s : bytes) : Prop := ~ In 44 s.
Lemma comma_split a a' x x' : no_comma a -> no_comma a' -> a ++ 44 :: x = a' ++ 44 :: x' -> a = a' /\ x = x'.
Proof.
  revert a'. induction a as [|c a IH]; intros [|c' a'] H H' E; cbn in E.
  - injection E as <-. auto.
  - injection E as <- _. destruct H'. now left.
  - injection E as -> _. destruct H. now left.
  - injection E as <- E. destruct (IH a') as [-> ->]; auto; intros K; [apply H|apply H']; now right.
Qed.
Lemma place_no_comma i : 1 <= i -> no_comma (place i).
Proof.
  intros H. assert (D : forall n, 0 <= n -> no_comma (to_string n)).
  { intros n Hn K. pose proof (to_string_decimal n Hn) as (D & _). rewrite Forall_forall in D. specialize (D _ K). lia. }
  unfold place, no_comma. destruct (i <=? 61) eqn:E; rewrite in_app_iff; (intros [K|K]; [cbn in K; lia|]); revert K; apply D; lia.
Qed.
Lemma field_messages_differ h i h' : field_line h = entry_line i h' -> False.
Proof. discriminate. Qed.
Lemma field_message_read h h' m : no_comma (h_name h) -> no_comma (h_name h') -> field_message h m -> field_message h' m -> h = h'.
Proof.
  destruct h as [n v], h' as [n' v']. cbn [h_name]. intros Hn Hn' [->|(i & Hi & ->)] [E|(j & Hj & E)]; try (exfalso; symmetry in E; now apply field_messages_differ in E);
    try (exfalso; now apply field_messages_differ in E).
  - unfold field_line in E. cbn [h_name h_value] in E. injection E as E. apply (comma_split n n') in E as [-> E]; auto. cbn in E. injection E as E. now subst.
  - unfold entry_line in E. cbn [h_name h_value] in E. injection E as E. apply (comma_split (place i) (place j)) in E as [_ E]; auto using place_no_comma.
    cbn [List.app] in E. injection E as E. apply (comma_split n n') in E as [-> E]; auto. cbn in E. injection E as E. apply app_inv_tail in E. now subst.
Qed.
Lemma fields_read hs : forall hs' ms, Forall (fun h => no_comma (h_name h)) hs -> Forall (fun h => no_comma (h_name h)) hs' ->
  Forall2 field_message hs ms -> Forall2 field_message hs' ms -> hs = hs'.
Proof.
  induction hs as [|h hs IH]; intros hs' ms N N' H H'; inversion H; subst; inversion H'; subst; [reflexivity|].
  inversion N; subst. inversion N'; subst. f_equal; [eapply field_message_read; eauto|eapply IH; eauto].
Qed.
