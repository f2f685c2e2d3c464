From Verif Require Import Base BaseLemmas SpecInt IntCodec IntProofs SpecHuffman Huffman HuffmanProofs
  SpecTable DynTable DynTableProofs StaticTable SpecHpack HpackLemmas HpackDec.

Notation SP := server_profile.

Lemma static_table_eq : STATIC_TABLE = rfc_static.
Proof. reflexivity. Qed.

Lemma int_decode_cases N r : 1 <= N <= 8 -> all_bytes r ->
  (exists v used rest, int_decode N r = (Val v, rest) /\ r = used ++ rest /\ p_rfc_int SP N used v) \/
  (exists e rest, int_decode N r = (Error e, rest) /\ ~ int_at N r).
Proof.
  intros HN Hr. pose proof (int_decode_outcome N r HN Hr) as H.
  destruct (int_decode N r) as [[v|e] rest]; cbn [int_outcome] in H.
  - left. destruct H as (used & E & Hi & Hv & Hl). exists v, used, rest. repeat split; auto.
  - right. exists e, rest. split; [reflexivity|]. intros (used & rest' & v & E & Hi & Hp). cbn in Hp.
    destruct e.
    + eapply H; eauto.
    + specialize (H _ _ _ E Hi). lia.
    + specialize (H _ _ _ E Hi). lia.
Qed.

Lemma int_decode_at N used rest v : 1 <= N <= 8 -> p_rfc_int SP N used v ->
  int_decode N (used ++ rest) = (Val v, rest).
Proof. intros HN [Hi [Hl Hv]]. now apply int_decode_complete. Qed.

Lemma string_at_flag b : is_byte b -> negb (Z.land b 128 =? 0) = negb (b <? 128).
Proof. intros H. now rewrite land_128_zero. Qed.

Lemma table_size_in h l : In h l -> entry_size h <= table_size l.
Proof.
  induction l as [|x l IH]; [easy|]. rewrite table_size_cons. pose proof (table_size_nonneg l).
  pose proof (entry_size_pos x). intros [->|H1]; [lia|]. specialize (IH H1). lia.
Qed.

Section Dec.
  Let T := the_tree.

  Lemma read_bytes_cases r n : 0 <= n ->
    (exists d rest, read_bytes r n = Some (d, rest) /\ r = d ++ rest /\ lenZ d = n) \/
    (read_bytes r n = None /\ lenZ r < n).
  Proof.
    intros Hn. unfold read_bytes, has_bytes. destruct (n <=? lenZ r) eqn:E.
    - left. do 2 eexists. split; [reflexivity|]. split; [now rewrite firstn_skipn|].
      unfold lenZ in *. rewrite firstn_length. lia.
    - right. split; [reflexivity|lia].
  Qed.

  (** Outcome of reading a string literal. *)
  Lemma read_string_outcome r : all_bytes r ->
    exists res rest, read_length_and_string T r = Ret (res, rest) /\
      (exists used, r = used ++ rest) /\
      match res with
      | Val s => exists used, r = used ++ rest /\ rfc_string SP used s
      | Error e => e = ProtocolError /\ forall used rest' s, r = used ++ rest' -> ~ rfc_string SP used s
      end.
  Proof.
    intros Hr. unfold read_length_and_string. destruct r as [|b r0].
    { cbn [peek_byte]. exists (Error ProtocolError), []. repeat split; [now exists []|].
      intros used rest' s E H. apply string_nonempty in H as (x & y & -> & _). easy. }
    cbn [peek_byte]. set (r := b :: r0) in *.
    destruct (int_decode_cases 7 r ltac:(lia) Hr) as [(v & used & rest & -> & E & Hi)|(e & rest & E & Hno)].
    - assert (Hv : 0 <= v) by (destruct Hi as [Hi _]; apply rfc_int_nonneg in Hi; lia).
      assert (Hub : exists ub, used = b :: ub).
      { destruct Hi as [Hi _]. inversion Hi; subst; cbn in E; injection E; intros; subst; eauto. }
      destruct Hub as (ub & ->).
      assert (Hint : forall b' ib' rest' v', r = (b' :: ib') ++ rest' -> rfc_int 7 (b' :: ib') v' ->
         b' = b /\ ib' = ub /\ rest' = rest /\ v' = v).
      { intros b' ib' rest' v' E' Hi'. rewrite E in E'. destruct Hi as [Hi _].
        destruct (rfc_int_prefix_free _ _ _ Hi _ _ _ _ Hi' E') as (E1 & -> & ->).
        injection E1 as <- <-. auto. }
      assert (Hbb : is_byte b) by (apply all_bytes_cons in Hr; tauto).
      assert (Hrest : all_bytes rest) by (rewrite E in Hr; apply all_bytes_app in Hr; tauto).
      destruct (read_bytes_cases rest v Hv) as [(d & rest2 & -> & Ed & Hld)|(-> & Hlt)].
      + assert (Hd : all_bytes d) by (rewrite Ed in Hrest; apply all_bytes_app in Hrest; tauto).
        rewrite string_at_flag by auto. unfold read_string.
        destruct (b <? 128) eqn:Eb; cbn [negb].
        * unfold string_length_within_limit, MAX_HEADER_STRING_LENGTH.
          destruct (v >? 4096) eqn:E4; cbn [negb obind].
          -- exists (Error ProtocolError), rest2. split; [reflexivity|].
             split; [exists ((b :: ub) ++ d); rewrite <- app_assoc; now rewrite E, Ed|].
             split; [reflexivity|]. intros u' rest' s Eu H.
             inversion H as [b' ib' s' [Hi' _] Hb' Hs' Hl'|b' ib' p' s' [Hi' _] Hb' Hp' Hs' Hh' Hl']; subst u' s';
               rewrite <- app_assoc in Eu; destruct (Hint _ _ _ _ Eu Hi') as (-> & -> & <- & Hvv).
             ++ cbn in Hl'. lia.
             ++ lia.
          -- exists (Val d), rest2. split; [reflexivity|].
             assert (Er : r = ((b :: ub) ++ d) ++ rest2) by (rewrite <- app_assoc; now rewrite E, Ed).
             split; [eauto|]. eexists. split; [exact Er|].
             apply string_raw; auto; [rewrite Hld; exact Hi|lia|cbn; lia].
        * unfold decode_huffman_string.
          destruct (huffman_decode_total d) as [(s & Es)|Es]; fold T in Es; rewrite Es; cbn [obind].
          -- pose proof (proj1 (huffman_decode_val d s) Es) as [Hs Hlen].
             assert (Er : r = ((b :: ub) ++ d) ++ rest2) by (rewrite <- app_assoc; now rewrite E, Ed).
             unfold string_length_within_limit, MAX_HEADER_STRING_LENGTH.
             destruct (lenZ s >? 4096) eqn:E4; cbn [negb obind].
             ++ exists (Error ProtocolError), rest2. split; [reflexivity|]. split; [eauto|].
                split; [reflexivity|]. intros u' rest' s0 Eu H.
                inversion H as [b' ib' s' [Hi' _] Hb' Hs' Hl'|b' ib' p' s' [Hi' _] Hb' Hp' Hs' Hh' Hl']; subst u' s';
                  rewrite <- app_assoc in Eu; destruct (Hint _ _ _ _ Eu Hi') as (-> & -> & Er' & Hvv).
                ** lia.
                ** rewrite Ed in Er'. apply app_inj_len in Er' as [-> _]; [|unfold lenZ in *; lia].
                   cbn in Hh', Hl'. assert (s0 = s) by (eapply lenient_functional; eauto). subst. lia.
             ++ exists (Val s), rest2. split; [reflexivity|]. split; [eauto|].
                eexists. split; [exact Er|].
                eapply string_huffman; eauto; [rewrite Hld; exact Hi|lia|cbn; lia].
          -- exists (Error ProtocolError), rest2. split; [reflexivity|].
             split; [exists ((b :: ub) ++ d); rewrite <- app_assoc; now rewrite E, Ed|].
             split; [reflexivity|]. intros u' rest' s0 Eu H.
             inversion H as [b' ib' s' [Hi' _] Hb' Hs' Hl'|b' ib' p' s' [Hi' _] Hb' Hp' Hs' Hh' Hl']; subst u' s';
                  rewrite <- app_assoc in Eu; destruct (Hint _ _ _ _ Eu Hi') as (-> & -> & Er' & Hvv).
             ++ lia.
             ++ rewrite Ed in Er'. apply app_inj_len in Er' as [-> _]; [|unfold lenZ in *; lia].
                cbn in Hh'. assert (D : huffman_decode T d = Ret (Val s0)).
                { apply huffman_decode_val. auto. }
                congruence.
      + exists (Error ProtocolError), rest. split; [reflexivity|].
        split; [eauto|]. split; [reflexivity|]. intros u' rest' s0 Eu H.
        inversion H as [b' ib' s' [Hi' _] Hb' Hs' Hl'|b' ib' p' s' [Hi' _] Hb' Hp' Hs' Hh' Hl']; subst u' s';
          rewrite <- app_assoc in Eu; destruct (Hint _ _ _ _ Eu Hi') as (-> & -> & Er' & Hvv).
        * apply (f_equal lenZ) in Er'. rewrite lenZ_app in Er'. pose proof (lenZ_nonneg rest'). lia.
        * apply (f_equal lenZ) in Er'. rewrite lenZ_app in Er'. pose proof (lenZ_nonneg rest'). lia.
    - rewrite E. exists (Error ProtocolError), rest. split; [reflexivity|].
      pose proof (int_decode_consumed 7 r) as (u & Eu & _). rewrite E in Eu. cbn [snd] in Eu.
      split; [eauto|]. split; [reflexivity|]. intros u' rest' s0 Eu' H.
      inversion H as [b' ib' s' Hi' Hb' Hs' Hl'|b' ib' p' s' Hi' Hb' Hp' Hs' Hh' Hl']; subst u' s';
        rewrite <- app_assoc in Eu'; apply Hno; do 3 eexists; split; eauto.
  Qed.

  (** Table lookups. *)
  Lemma read_indexed_header_spec t l m index : dt_rep t l m -> m <= 65536 -> 1 <= index < 2 ^ 32 ->
    read_indexed_header t index =
      Ret (match table_entry l index with Some h => Val h | None => Error ProtocolError end).
  Proof.
    intros (<- & _ & _ & _ & Hsz) Hm Hi. change (2 ^ 32) with 4294967296 in Hi.
    unfold read_indexed_header, table_entry. rewrite static_table_eq.
    replace (1 <=? index) with true by lia.
    assert (E61 : lenZ rfc_static = 61) by reflexivity. rewrite E61.
    replace (u64 (index - 1)) with (index - 1) by (unfold u64; lia).
    destruct (index - 1 <? 61) eqn:E.
    - rewrite nth_error_app1 by (unfold lenZ in E61; lia).
      destruct (nth_error rfc_static (Z.to_nat (index - 1))) eqn:En; [reflexivity|].
      apply nth_error_None in En. unfold lenZ in E61. lia.
    - replace (u64 (index - 1 - 61)) with (index - 62) by (unfold u64; lia).
      rewrite nth_error_app2 by (unfold lenZ in E61; lia).
      replace (Z.to_nat (index - 1) - length rfc_static)%nat with (Z.to_nat (index - 62))
        by (unfold lenZ in E61; lia).
      destruct (index - 62 >=? dt_count t) eqn:Ec.
      + destruct (nth_error (dt_table t) (Z.to_nat (index - 62))) eqn:En; [|reflexivity].
        assert (nth_error (dt_table t) (Z.to_nat (index - 62)) <> None) as Hn by congruence.
        apply nth_error_Some in Hn. unfold dt_count, lenZ in Ec. lia.
      + destruct (dt_get_spec t (index - 62)) as (h & -> & ->); [lia|]. reflexivity.
  Qed.

  Lemma read_indexed_header_name_spec t l m index : dt_rep t l m -> m <= 65536 -> 1 <= index < 2 ^ 32 ->
    read_indexed_header_name t index =
      Ret (match table_entry l index with Some h => Val (h_name h) | None => Error ProtocolError end).
  Proof.
    intros R Hm Hi. pose proof (read_indexed_header_spec t l m index R Hm Hi) as H.
    unfold read_indexed_header in H. unfold read_indexed_header_name.
    destruct (u64 (index - 1) <? lenZ STATIC_TABLE).
    - destruct (nth_error STATIC_TABLE _); [|easy]. injection H as H.
      destruct (table_entry l index); [|easy]. now injection H as ->.
    - destruct (_ >=? dt_count t).
      + injection H as H. destruct (table_entry l index); easy.
      + destruct (dt_get t _); try easy. cbn [obind] in *. injection H as H.
        destruct (table_entry l index); [|easy]. now injection H as ->.
  Qed.

  (** Literal fields. *)
  Lemma decode_literal_outcome N t l m r : N = 6 \/ N = 4 -> dt_rep t l m -> m <= 65536 -> all_bytes r ->
    (decode_literal_field T N t r = Undef /\ ~ int_at N r) \/
    (int_at N r /\ exists res rest, decode_literal_field T N t r = Ret (res, rest) /\
      (exists used, r = used ++ rest) /\
      match res with
      | Val h => exists nb vb, r = nb ++ vb ++ rest /\ rfc_name SP N l nb (h_name h) /\
                   rfc_string SP vb (h_value h)
      | Error e => e = ProtocolError /\
          forall nb vb n v rest', r = nb ++ vb ++ rest' -> rfc_name SP N l nb n -> ~ rfc_string SP vb v
      end).
  Proof.
    intros HN R Hm Hr. unfold decode_literal_field.
    destruct (int_decode_cases N r ltac:(lia) Hr) as [(i & used & r1 & -> & E & Hi)|(e & rest & E & Hno)].
    2:{ left. rewrite E. auto. }
    right. split; [do 3 eexists; eauto|].
    assert (Hr1 : all_bytes r1) by (rewrite E in Hr; apply all_bytes_app in Hr; tauto).
    assert (Hib : 0 <= i < 2 ^ 32).
    { destruct Hi as [Hi [_ Hv]]. apply rfc_int_nonneg in Hi; [lia|lia]. }
    (* after a name of some kind *)
    assert (K : forall nb n r2, r = nb ++ r2 -> rfc_name SP N l nb n -> all_bytes r2 ->
      exists res rest,
        (let! (value, r3) := read_length_and_string T r2 in
         match value with Error _ => Ret (Error ProtocolError, r3) | Val v => Ret (Val (Hdr n v), r3) end)
          = Ret (res, rest) /\
        (exists used, r = used ++ rest) /\
        match res with
        | Val h => exists nb vb, r = nb ++ vb ++ rest /\ rfc_name SP N l nb (h_name h) /\
                   rfc_string SP vb (h_value h)
        | Error e => e = ProtocolError /\
          forall nb vb n v rest', r = nb ++ vb ++ rest' -> rfc_name SP N l nb n -> ~ rfc_string SP vb v
        end).
    { intros nb n r2 En Hn Hr2.
      destruct (read_string_outcome r2 Hr2) as (res & rest & -> & (u & Eu) & Hres). cbn [obind].
      destruct res as [v|e].
      - destruct Hres as (vb & Ev & Hv). eexists _, _. split; [reflexivity|].
        split; [exists (nb ++ u); rewrite <- app_assoc; now rewrite En, Eu|].
        exists nb, vb. cbn [h_name h_value]. repeat split; auto. now rewrite En, Ev.
      - destruct Hres as [-> Hno]. eexists _, _. split; [reflexivity|].
        split; [exists (nb ++ u); rewrite <- app_assoc; now rewrite En, Eu|].
        split; [reflexivity|]. intros nb' vb' n' v' rest' E' Hn' Hv'.
        rewrite En in E'. destruct (name_det SP server_profile_functional _ _ _ _ Hn _ _ _ _ Hn' E') as (_ & _ & E2).
        eapply Hno; eauto. }
    destruct (i =? 0) eqn:E0.
    - apply Z.eqb_eq in E0. subst i.
      destruct (read_string_outcome r1 Hr1) as (res & r2 & -> & (u & Eu) & Hres). cbn [obind].
      destruct res as [n|e].
      + destruct Hres as (sb & Es & Hs). apply (K (used ++ sb) n r2).
        * rewrite <- app_assoc. now rewrite E, Es.
        * now apply name_literal.
        * rewrite Es in Hr1. apply all_bytes_app in Hr1. tauto.
      + destruct Hres as [-> Hno]. exists (Error ProtocolError), r2. split; [reflexivity|].
        split; [exists (used ++ u); rewrite <- app_assoc; now rewrite E, Eu|].
        split; [reflexivity|]. intros nb vb n v rest' E' Hn Hv.
        destruct Hi as [Hi _]. rewrite E in E'.
        destruct Hn as [ib' i' h' [Hi' _] Hz' Ht'|ib' sb' s' [Hi' _] Hs'].
        * destruct (rfc_int_prefix_free _ _ _ Hi _ _ _ _ Hi' E') as (_ & _ & <-). easy.
        * rewrite <- app_assoc in E'.
          destruct (rfc_int_prefix_free _ _ _ Hi _ _ _ _ Hi' E') as (_ & E2 & _). eapply Hno; eauto.
    - rewrite (read_indexed_header_name_spec t l m i R Hm) by lia. cbn [obind].
      destruct (table_entry l i) as [h|] eqn:Et.
      + apply (K used (h_name h) r1); auto. eapply name_indexed; eauto. lia.
      + exists (Error ProtocolError), r1. split; [reflexivity|]. split; [eauto|].
        split; [reflexivity|]. intros nb vb n v rest' E' Hn Hv.
        destruct Hi as [Hi _]. rewrite E in E'.
        destruct Hn as [ib' i' h' [Hi' _] Hz' Ht'|ib' sb' s' [Hi' _] Hs'].
        * destruct (rfc_int_prefix_free _ _ _ Hi _ _ _ _ Hi' E') as (_ & _ & <-). congruence.
        * rewrite <- app_assoc in E'.
          destruct (rfc_int_prefix_free _ _ _ Hi _ _ _ _ Hi' E') as (_ & _ & ->). lia.
  Qed.

  Lemma decode_indexed_outcome t l m r : dt_rep t l m -> m <= 65536 -> all_bytes r ->
    (decode_indexed_field t r = Undef /\ ~ int_at 7 r) \/
    (int_at 7 r /\ exists res rest used i, decode_indexed_field t r = Ret (res, rest) /\
      r = used ++ rest /\ p_rfc_int SP 7 used i /\
      match res with
      | Val h => table_entry l i = Some h
      | Error e => e = ProtocolError /\ table_entry l i = None
      end).
  Proof.
    intros R Hm Hr. unfold decode_indexed_field.
    destruct (int_decode_cases 7 r ltac:(lia) Hr) as [(i & used & r1 & -> & E & Hi)|(e & rest & E & Hno)].
    2:{ left. rewrite E. auto. }
    right. split; [do 3 eexists; eauto|].
    assert (Hib : 0 <= i < 2 ^ 32).
    { destruct Hi as [Hi [_ Hv]]. apply rfc_int_nonneg in Hi; [lia|lia]. }
    destruct (i <? 1) eqn:E1.
    - exists (Error ProtocolError), r1, used, i. repeat split; auto; try apply Hi.
      unfold table_entry. replace (1 <=? i) with false by lia. reflexivity.
    - rewrite (read_indexed_header_spec t l m i R Hm) by lia. cbn [obind].
      eexists _, r1, used, i. repeat split; auto; try apply Hi. destruct (table_entry l i); auto.
  Qed.

  Lemma decode_size_update_outcome t l m r : dt_rep t l m -> all_bytes r ->
    exists res rest used, decode_size_update t r = Ret (res, rest) /\ r = used ++ rest /\
      match res with
      | Val t' => exists n, p_rfc_int SP 5 used n /\ n <= 65536 /\ dt_rep t' (fit n l) n
      | Error e => e = ProtocolError /\
          forall used rest n, r = used ++ rest -> p_rfc_int SP 5 used n -> 65536 < n
      end.
  Proof.
    intros R Hr. unfold decode_size_update.
    destruct (int_decode_cases 5 r ltac:(lia) Hr) as [(n & used & r1 & -> & E & Hi)|(e & rest & E & Hno)].
    - assert (Hn : 0 <= n < 2 ^ 32).
      { destruct Hi as [Hi [_ Hv]]. apply rfc_int_nonneg in Hi; [lia|lia]. }
      unfold HARD_TABLE_SIZE_LIMIT. destruct (n >? 65536) eqn:E1.
      + exists (Error ProtocolError), r1, used. repeat split; auto.
        intros used' rest' n' E' [Hi' _]. rewrite E in E'. destruct Hi as [Hi _].
        destruct (rfc_int_prefix_free _ _ _ Hi _ _ _ _ Hi' E') as (_ & _ & <-). lia.
      + destruct (dt_set_max_rep t l m n R) as (t' & -> & R').
        { change (2 ^ 63) with 9223372036854775808. change (2 ^ 32) with 4294967296 in Hn. lia. }
        cbn [obind]. exists (Val t'), r1, used. repeat split; auto. exists n.
        repeat split; auto; try apply Hi; try apply R'. lia.
    - rewrite E. exists (Error ProtocolError), rest.
      pose proof (int_decode_consumed 5 r) as (u & Eu & _). rewrite E in Eu. cbn [snd] in Eu.
      exists u. repeat split; auto. intros used rest' n E' Hi'. exfalso. apply Hno.
      do 3 eexists; eauto.
  Qed.

  Lemma from_byte_cases b : is_byte b ->
    (128 <= b /\ from_byte b = Indexed) \/ (64 <= b < 128 /\ from_byte b = LiteralIncremental) \/
    (32 <= b < 64 /\ from_byte b = SizeUpdate) \/
    (16 <= b < 32 /\ from_byte b = LiteralNeverIndex) \/ (b < 16 /\ from_byte b = LiteralNoIndex).
  Proof.
    intros H.
    assert (F : (match from_byte b with
      | Indexed => 128 <=? b | LiteralIncremental => (64 <=? b) && (b <? 128)
      | SizeUpdate => (32 <=? b) && (b <? 64) | LiteralNeverIndex => (16 <=? b) && (b <? 32)
      | LiteralNoIndex => b <? 16 | Invalid => false end) = true).
    { revert b H. apply octet_sweep. vm_compute. reflexivity. }
    destruct (from_byte b); try easy; repeat (try (left; split; [lia|reflexivity]); right);
      try (split; [lia|reflexivity]); exfalso; easy.
  Qed.

  (** The index prefix width of a first octet (not a size update). *)
  Definition dec_outcome (t : dyn_table) (l : list header) (m : Z) (r : bytes) (hdrs : list header)
      (o : out (expected frame_error (list header) * dyn_table)) : Prop :=
    (exists hs t' l' m', o = Ret (Val (hdrs ++ hs), t') /\ rfc_block SP (l, m) r hs (l', m') /\
       dt_rep t' l' m' /\ m' <= 65536) \/
    (exists r1 r2 hs t' l' m', r = r1 ++ r2 /\ rfc_block SP (l, m) r1 hs (l', m') /\
       dt_rep t' l' m' /\ m' <= 65536 /\ r2 <> [] /\
       ((o = Ret (Error ProtocolError, t') /\ stuck SP (l', m') r2 /\ ~ bad_index r2) \/
        (o = Undef /\ bad_index r2))).

  Lemma name_int_at N dyn nb n rest : rfc_name SP N dyn nb n -> int_at N (nb ++ rest).
  Proof.
    destruct 1 as [ib i h Hi _ _|ib sb s Hi _].
    - exists ib, rest, i. auto.
    - exists ib, (sb ++ rest), 0. rewrite <- app_assoc. auto.
  Qed.

  Lemma bad_index_stuck st r : bad_index r -> stuck SP st r.
  Proof.
    intros (b & rest & N & E0 & HN & Hno). split; [now subst|].
    intros used rest' hs st' E H. apply Hno.
    destruct H as [dyn max f rr i h Hf Hi Ht|dyn max f rr n vb v Hf Hn Hv
                  |dyn max f rr n vb v Hf Hn Hv|dyn max f rr n Hf Hi Hl];
      assert (f = b) by (rewrite E0 in E; cbn in E; now injection E); subst f; unfold index_prefix in HN;
      rewrite E.
    - replace (128 <=? b) with true in HN by lia. injection HN as <-.
      eexists _, rest', i. split; [reflexivity|exact Hi].
    - replace (128 <=? b) with false in HN by lia. replace (64 <=? b) with true in HN by lia.
      injection HN as <-. rewrite <- app_assoc. eapply name_int_at; eauto.
    - replace (128 <=? b) with false in HN by lia. replace (64 <=? b) with false in HN by lia.
      replace (32 <=? b) with false in HN by lia.
      injection HN as <-. rewrite <- app_assoc. eapply name_int_at; eauto.
    - replace (128 <=? b) with false in HN by lia. replace (64 <=? b) with false in HN by lia.
      replace (32 <=? b) with true in HN by lia. easy.
  Qed.

  Lemma not_bad_index b rest N : index_prefix b = Some N -> int_at N (b :: rest) -> ~ bad_index (b :: rest).
  Proof.
    intros HN Hi (b' & rest' & N' & E & HN' & Hno). injection E as <- <-.
    rewrite HN in HN'. injection HN' as <-. easy.
  Qed.

  Lemma decode_loop_outcome fuel : forall t l m r hdrs,
    dt_rep t l m -> m <= 65536 -> all_bytes r -> (length r <= fuel)%nat ->
    dec_outcome t l m r hdrs (decode_loop T fuel t r hdrs).
  Proof.
    induction fuel as [|fuel IH]; intros t l m r hdrs R Hm Hr Hf.
    { destruct r as [|b r]; [|cbn in Hf; lia]. left. exists [], t, l, m.
      cbn [decode_loop]. rewrite app_nil_r. repeat split; auto; try apply R. constructor. }
    destruct r as [|b r'].
    { left. exists [], t, l, m. cbn [decode_loop]. rewrite app_nil_r. repeat split; auto; try apply R.
      constructor. }
    cbn [decode_loop]. set (r := b :: r') in *.
    assert (Hb : is_byte b) by (apply all_bytes_cons in Hr; tauto).
    (* one representation was read: continue *)
    assert (STEP : forall used rest hs t1 l1 m1, r = used ++ rest ->
       rfc_repr SP (l, m) used hs (l1, m1) -> dt_rep t1 l1 m1 -> m1 <= 65536 ->
       dec_outcome t l m r hdrs (decode_loop T fuel t1 rest (hdrs ++ hs))).
    { intros used rest hs t1 l1 m1 E Hrep R1 Hm1.
      assert (Hrest : all_bytes rest) by (rewrite E in Hr; apply all_bytes_app in Hr; tauto).
      assert (Hlen : (length rest <= fuel)%nat).
      { destruct (repr_nonempty _ _ _ _ _ Hrep) as (x & y & -> & _).
        apply (f_equal (@length Z)) in E. rewrite app_length in E. cbn [length] in E. lia. }
      destruct (IH t1 l1 m1 rest (hdrs ++ hs) R1 Hm1 Hrest Hlen)
        as [(hs2 & t2 & l2 & m2 & Eo & Hbl & R2 & Hm2)
           |(r1 & r2 & hs2 & t2 & l2 & m2 & Er & Hbl & R2 & Hm2 & Hne & Ho)].
      - left. exists (hs ++ hs2), t2, l2, m2. rewrite Eo, <- app_assoc. repeat split; auto; try apply R2.
        rewrite E. econstructor; eauto.
      - right. exists (used ++ r1), r2, (hs ++ hs2), t2, l2, m2.
        repeat split; auto; try apply R2.
        + rewrite E, Er. now rewrite <- app_assoc.
        + econstructor; eauto. }
    (* the representation was refused *)
    assert (FAIL : stuck SP (l, m) r -> ~ bad_index r ->
       dec_outcome t l m r hdrs (Ret (Error ProtocolError, t))).
    { intros Hs Hnb. right. exists [], r, [], t, l, m. split; [reflexivity|].
      split; [constructor|]. split; [exact R|]. split; [auto|]. split; [easy|]. left. auto. }
    assert (UNDEF : bad_index r -> dec_outcome t l m r hdrs Undef).
    { intros Hnb. right. exists [], r, [], t, l, m. split; [reflexivity|].
      split; [constructor|]. split; [exact R|]. split; [auto|]. split; [easy|]. right. auto. }
    assert (Hents : forall i h, table_entry l i = Some h -> lenZ (h_name h) <= 65536).
    { intros i h Ht. apply table_entry_in in Ht. apply in_app_or in Ht as [Ht|Ht].
      - pose proof static_small as S. rewrite Forall_forall in S. specialize (S _ Ht).
        unfold small_header in S. lia.
      - pose proof R as (_ & _ & _ & _ & Hsz). apply table_size_in in Ht. unfold entry_size in Ht.
        pose proof (lenZ_nonneg (h_value h)). lia. }
    assert (Hname : forall N nb n, rfc_name SP N l nb n -> lenZ n <= 65536).
    { intros N nb n Hn. destruct Hn; [eauto|]. apply string_small in H0. lia. }
    destruct (from_byte_cases b Hb) as [(Hc & ->)|[(Hc & ->)|[(Hc & ->)|[(Hc & ->)|(Hc & ->)]]]].
    - (* indexed *)
      assert (HN : index_prefix b = Some 7) by (unfold index_prefix; now replace (128 <=? b) with true by lia).
      destruct (decode_indexed_outcome t l m r R Hm Hr)
        as [(-> & Hno)|(Hat & res & rest & used & i & -> & E & Hi & Hres)]; cbn [obind].
      { apply UNDEF. exists b, r', 7. auto. }
      assert (Hu : exists u', used = b :: u').
      { destruct Hi as [Hi _]. inversion Hi; subst used; cbn in E; injection E; intros; subst; eauto. }
      destruct Hu as (u' & ->).
      destruct res as [h|e].
      + apply (STEP (b :: u') rest [h] t l m); auto.
        eapply repr_indexed; eauto. unfold is_byte in Hb. lia.
      + destruct Hres as [-> Hnone]. apply FAIL; [|now apply (not_bad_index b r' 7)].
        split; [easy|]. intros used0 rest0 hs st' E' H'.
        inversion H' as [dyn max f rr i' h Hf' [Hi' _] Ht|dyn max f rr n vb v Hf' Hn Hv
                  |dyn max f rr n vb v Hf' Hn Hv|dyn max f rr n Hf' Hi' Hl']; subst;
          assert (f = b) by (cbn in E'; now injection E'); subst f; try lia.
        rewrite E in E'. destruct Hi as [Hi _].
        destruct (rfc_int_prefix_free _ _ _ Hi _ _ _ _ Hi' E') as (_ & _ & <-). congruence.
    - (* incremental *)
      assert (HN : index_prefix b = Some 6).
      { unfold index_prefix. replace (128 <=? b) with false by lia. now replace (64 <=? b) with true by lia. }
      destruct (decode_literal_outcome 6 t l m r ltac:(auto) R Hm Hr)
        as [(-> & Hno)|(Hat & res & rest & -> & _ & Hres)]; cbn [obind].
      { apply UNDEF. exists b, r', 6. auto. }
      destruct res as [h|e].
      + destruct Hres as (nb & vb & E & Hn & Hv).
        assert (header_sane h).
        { unfold header_sane, entry_size. apply Hname in Hn. apply string_small in Hv.
          change (2 ^ 63) with 9223372036854775808. lia. }
        destruct (dt_insert_rep t l m h R H) as (t1 & -> & R1). cbn [obind].
        destruct (name_nonempty _ _ _ _ _ Hn) as (x & nb' & -> & _).
        assert (x = b) by (cbn in E; now injection E). subst x.
        apply (STEP ((b :: nb') ++ vb) rest [h] t1 (fit m (h :: l)) m); auto.
        * rewrite <- app_assoc. exact E.
        * destruct h as [n v]. apply repr_incremental; auto.
      + destruct Hres as [-> Hno]. apply FAIL; [|now apply (not_bad_index b r' 6)].
        split; [easy|]. intros used0 rest0 hs st' E' H'.
        inversion H' as [dyn max f rr i' h Hf' Hi' Ht|dyn max f rr n vb v Hf' Hn Hv
                  |dyn max f rr n vb v Hf' Hn Hv|dyn max f rr n Hf' Hi' Hl']; subst;
          assert (f = b) by (cbn in E'; now injection E'); subst f; try lia.
        rewrite <- app_assoc in E'. eapply Hno; eauto.
    - (* size update *)
      assert (HN : index_prefix b = None).
      { unfold index_prefix. replace (128 <=? b) with false by lia. replace (64 <=? b) with false by lia.
        now replace (32 <=? b) with true by lia. }
      destruct (decode_size_update_outcome t l m r R Hr) as (res & rest & used & -> & E & Hres); cbn [obind].
      destruct res as [t1|e].
      + destruct Hres as (n & Hi & Hn & R1).
        assert (Hu : exists u', used = b :: u').
        { destruct Hi as [Hi _]. inversion Hi; subst used; cbn in E; injection E; intros; subst; eauto. }
        destruct Hu as (u' & ->).
        replace hdrs with (hdrs ++ []) by apply app_nil_r.
        pose proof (STEP (b :: u') rest [] t1 (fit n l) n E) as S. rewrite app_nil_r in S |- *.
        apply S; auto. apply repr_size_update; auto.
      + destruct Hres as [-> Hno]. apply FAIL.
        * split; [easy|]. intros used0 rest0 hs st' E' H'.
          inversion H' as [dyn max f rr i' h Hf' Hi' Ht|dyn max f rr n vb v Hf' Hn Hv
                  |dyn max f rr n vb v Hf' Hn Hv|dyn max f rr n Hf' Hi' Hl']; subst;
          assert (f = b) by (cbn in E'; now injection E'); subst f; try lia.
          specialize (Hno _ _ _ E' Hi'). cbn in Hl'. lia.
        * intros (b' & x & N & Eb & HN' & _). injection Eb as <- <-. congruence.
    - (* never indexed *)
      assert (HN : index_prefix b = Some 4).
      { unfold index_prefix. replace (128 <=? b) with false by lia. replace (64 <=? b) with false by lia.
        now replace (32 <=? b) with false by lia. }
      destruct (decode_literal_outcome 4 t l m r ltac:(auto) R Hm Hr)
        as [(-> & Hno)|(Hat & res & rest & -> & _ & Hres)]; cbn [obind].
      { apply UNDEF. exists b, r', 4. auto. }
      destruct res as [h|e].
      + destruct Hres as (nb & vb & E & Hn & Hv).
        destruct (name_nonempty _ _ _ _ _ Hn) as (x & nb' & -> & _).
        assert (x = b) by (cbn in E; now injection E). subst x.
        apply (STEP ((b :: nb') ++ vb) rest [h] t l m); auto.
        * rewrite <- app_assoc. exact E.
        * destruct h as [n v]. apply repr_literal; auto. lia.
      + destruct Hres as [-> Hno]. apply FAIL; [|now apply (not_bad_index b r' 4)].
        split; [easy|]. intros used0 rest0 hs st' E' H'.
        inversion H' as [dyn max f rr i' h Hf' Hi' Ht|dyn max f rr n vb v Hf' Hn Hv
                  |dyn max f rr n vb v Hf' Hn Hv|dyn max f rr n Hf' Hi' Hl']; subst;
          assert (f = b) by (cbn in E'; now injection E'); subst f; try lia.
        rewrite <- app_assoc in E'. eapply Hno; eauto.
    - (* without indexing *)
      assert (HN : index_prefix b = Some 4).
      { unfold index_prefix. replace (128 <=? b) with false by lia. replace (64 <=? b) with false by lia.
        now replace (32 <=? b) with false by lia. }
      destruct (decode_literal_outcome 4 t l m r ltac:(auto) R Hm Hr)
        as [(-> & Hno)|(Hat & res & rest & -> & _ & Hres)]; cbn [obind].
      { apply UNDEF. exists b, r', 4. auto. }
      destruct res as [h|e].
      + destruct Hres as (nb & vb & E & Hn & Hv).
        destruct (name_nonempty _ _ _ _ _ Hn) as (x & nb' & -> & _).
        assert (x = b) by (cbn in E; now injection E). subst x.
        apply (STEP ((b :: nb') ++ vb) rest [h] t l m); auto.
        * rewrite <- app_assoc. exact E.
        * destruct h as [n v]. apply repr_literal; auto. unfold is_byte in Hb. lia.
      + destruct Hres as [-> Hno]. apply FAIL; [|now apply (not_bad_index b r' 4)].
        split; [easy|]. intros used0 rest0 hs st' E' H'.
        inversion H' as [dyn max f rr i' h Hf' Hi' Ht|dyn max f rr n vb v Hf' Hn Hv
                  |dyn max f rr n vb v Hf' Hn Hv|dyn max f rr n Hf' Hi' Hl']; subst;
          assert (f = b) by (cbn in E'; now injection E'); subst f; try lia.
        rewrite <- app_assoc in E'. eapply Hno; eauto.
  Qed.
End Dec.

(** ** Whole blocks and connections *)
Definition table_ok (t : dyn_table) : Prop :=
  dt_rep t (dt_table t) (dt_max t) /\ dt_max t <= 65536.

Lemma table_ok_init : table_ok (dt_init DEFAULT_MAX_TABLE_SIZE).
Proof. split; [apply dt_init_rep; now split|easy]. Qed.

Definition state_of (t : dyn_table) : tstate := (dt_table t, dt_max t).

Lemma dt_rep_state t l m : dt_rep t l m -> state_of t = (l, m) /\ dt_rep t (dt_table t) (dt_max t).
Proof. intros R. pose proof R as (<- & _ & <- & _). auto. Qed.

Lemma hpack_decode_outcome t data : table_ok t -> all_bytes data ->
  (exists hs t', hpack_decode the_tree t data = Ret (Val hs, t') /\ table_ok t' /\
     rfc_block SP (state_of t) data hs (state_of t')) \/
  (exists r1 r2 hs t', data = r1 ++ r2 /\ r2 <> [] /\ table_ok t' /\
     rfc_block SP (state_of t) r1 hs (state_of t') /\
     ((hpack_decode the_tree t data = Ret (Error ProtocolError, t') /\
         stuck SP (state_of t') r2 /\ ~ bad_index r2) \/
      (hpack_decode the_tree t data = Undef /\ bad_index r2))).
Proof.
  intros [R Hm] Hd. unfold hpack_decode.
  destruct (decode_loop_outcome (length data) t _ _ data [] R Hm Hd (le_n _))
    as [(hs & t' & l' & m' & Eo & Hb & R' & Hm')
       |(r1 & r2 & hs & t' & l' & m' & E & Hb & R' & Hm' & Hne & Ho)];
    destruct (dt_rep_state _ _ _ R') as [Es R2]; pose proof R' as (_ & _ & Emax & _);
    fold (state_of t) in Hb; rewrite <- Es in Hb.
  - left. exists hs, t'. repeat split; auto; try apply R2. lia.
  - right. exists r1, r2, hs, t'. rewrite <- Es in Ho. repeat split; auto; try apply R2. lia.
Qed.

Lemma hpack_decode_sound t data hs t' : table_ok t -> all_bytes data ->
  hpack_decode the_tree t data = Ret (Val hs, t') ->
  table_ok t' /\ rfc_block SP (state_of t) data hs (state_of t').
Proof.
  intros Ht Hd E.
  destruct (hpack_decode_outcome t data Ht Hd)
    as [(hs' & t2 & E' & Ht' & Hb)|(r1 & r2 & hs' & t2 & _ & _ & _ & _ & [(E' & _)|(E' & _)])];
    rewrite E in E'; try easy. injection E' as <- <-. auto.
Qed.

Lemma hpack_decode_complete t data hs st' : table_ok t -> all_bytes data ->
  rfc_block SP (state_of t) data hs st' ->
  exists t', hpack_decode the_tree t data = Ret (Val hs, t') /\ table_ok t' /\ state_of t' = st'.
Proof.
  intros Ht Hd H.
  destruct (hpack_decode_outcome t data Ht Hd)
    as [(hs' & t2 & E' & Ht' & Hb)|(r1 & r2 & hs' & t2 & E & Hne & _ & Hb & Ho)].
  - destruct (block_det SP server_profile_functional _ _ _ _ Hb _ _ H) as [-> <-]. eauto.
  - exfalso. subst data.
    assert (S : stuck SP (state_of t2) r2).
    { destruct Ho as [(_ & S & _)|(_ & S)]; [exact S|now apply bad_index_stuck]. }
    eapply stuck_no_block; eauto using server_profile_functional.
Qed.

Lemma decode_seq_sound blocks : Forall all_bytes blocks -> forall t hss t',
  table_ok t -> decode_seq the_tree t blocks = Ret (Val hss, t') ->
  table_ok t' /\ rfc_blocks SP (state_of t) blocks hss (state_of t').
Proof.
  induction 1 as [|b bs Hb _ IH]; intros t hss t' Ht E; cbn [decode_seq] in E.
  - injection E as <- <-. split; [auto|constructor].
  - destruct (hpack_decode the_tree t b) as [[[hs|e] t1]| | |] eqn:E1; cbn [obind] in E; try easy.
    destruct (hpack_decode_sound _ _ _ _ Ht Hb E1) as [Ht1 Hblk].
    destruct (decode_seq the_tree t1 bs) as [[[hss1|e] t2]| | |] eqn:E2; cbn [obind] in E; try easy.
    injection E as <- <-. destruct (IH _ _ _ Ht1 E2) as [Ht2 Hbs].
    split; [auto|]. econstructor; eauto.
Qed.

Lemma decode_seq_complete st blocks hss st' : rfc_blocks SP st blocks hss st' ->
  Forall all_bytes blocks -> forall t, table_ok t -> state_of t = st ->
  exists t', decode_seq the_tree t blocks = Ret (Val hss, t') /\ table_ok t' /\ state_of t' = st'.
Proof.
  induction 1 as [st|st b hs st1 bs hss st2 Hb Hbs IH]; intros Hall t Ht Es; cbn [decode_seq].
  - exists t. auto.
  - inversion Hall; subst.
    destruct (hpack_decode_complete _ _ _ _ Ht ltac:(eassumption) Hb) as (t1 & -> & Ht1 & Es1).
    cbn [obind]. destruct (IH ltac:(assumption) t1 Ht1 Es1) as (t2 & -> & Ht2 & Es2).
    cbn [obind]. eauto.
Qed.

Lemma table_ok_small_init : small_state (state_of (dt_init DEFAULT_MAX_TABLE_SIZE)).
Proof. split; [constructor|]. split; [easy|]. now split. Qed.

(** Versions for the property file. *)
Lemma connection_sound T blocks hss t : huffman_tree = Ret T -> Forall all_bytes blocks ->
  decode_seq T (dt_init DEFAULT_MAX_TABLE_SIZE) blocks = Ret (Val hss, t) ->
  rfc_blocks SP ([], 65536) blocks hss (dt_table t, dt_max t).
Proof.
  intros ->%tree_unique Hb E. now apply (decode_seq_sound blocks Hb _ _ _ table_ok_init).
Qed.

Lemma connection_complete T blocks hss l m : huffman_tree = Ret T -> Forall all_bytes blocks ->
  rfc_blocks SP ([], 65536) blocks hss (l, m) ->
  exists t, decode_seq T (dt_init DEFAULT_MAX_TABLE_SIZE) blocks = Ret (Val hss, t) /\
    dt_table t = l /\ dt_max t = m.
Proof.
  intros ->%tree_unique Hb H.
  destruct (decode_seq_complete _ _ _ _ H Hb (dt_init DEFAULT_MAX_TABLE_SIZE) table_ok_init eq_refl)
    as (t & E & _ & Es). exists t. unfold state_of in Es. injection Es as <- <-. auto.
Qed.

Lemma connection_bounds T blocks hss t : huffman_tree = Ret T -> Forall all_bytes blocks ->
  decode_seq T (dt_init DEFAULT_MAX_TABLE_SIZE) blocks = Ret (Val hss, t) ->
  Forall (Forall small_header) hss /\
  Forall2 (fun b hs => length hs <= length b)%nat blocks hss /\
  dt_size t <= 65536 /\ dt_size t = table_size (dt_table t) /\ lenZ (dt_table t) <= 2048.
Proof.
  intros ->%tree_unique Hb E.
  destruct (decode_seq_sound blocks Hb _ _ _ table_ok_init E) as [Ht H].
  destruct (blocks_small _ _ _ _ H table_ok_small_init) as (Hs & H1 & H2).
  destruct Ht as [(_ & Hz & _ & _ & Hf) Hm].
  pose proof (table_size_count (dt_table t)).
  repeat split; auto; lia.
Qed.

(** Table bounds hold after a refused block as well. *)
Lemma hpack_decode_table_bounds T t data res t' : huffman_tree = Ret T -> table_ok t -> all_bytes data ->
  hpack_decode T t data = Ret (res, t') -> table_ok t'.
Proof.
  intros ->%tree_unique Ht Hd E.
  destruct (hpack_decode_outcome t data Ht Hd)
    as [(hs' & t2 & E' & Ht' & Hb)|(r1 & r2 & hs' & t2 & _ & _ & Ht' & _ & [(E' & _)|(E' & _)])];
    rewrite E in E'; try easy; inversion E'; subst; auto.
Qed.

Lemma reachable_ok T t : huffman_tree = Ret T -> reachable_table T t -> table_ok t.
Proof.
  intros ->%tree_unique (blocks & hss & Hb & E).
  destruct (decode_seq_sound blocks Hb _ _ _ table_ok_init E). auto.
Qed.

Lemma defined_iff T t data : huffman_tree = Ret T -> reachable_table T t -> all_bytes data ->
  match hpack_decode T t data with
  | Ret (Val _, _) => True
  | Ret (Error e, _) => e = ProtocolError
  | Undef => exists r1 r2 hs l m, data = r1 ++ r2 /\
      rfc_block SP (dt_table t, dt_max t) r1 hs (l, m) /\ bad_index r2
  | _ => False
  end.
Proof.
  intros HT Hr Hd. pose proof (reachable_ok T t HT Hr) as Ht. apply tree_unique in HT. subst T.
  destruct (hpack_decode_outcome t data Ht Hd)
    as [(hs' & t2 & -> & Ht' & Hb)|(r1 & r2 & hs' & t2 & E & _ & _ & Hb & [(-> & _)|(-> & Hbad)])]; auto.
  exists r1, r2, hs', (dt_table t2), (dt_max t2). auto.
Qed.

Lemma well_formed_indices_defined T t data : huffman_tree = Ret T -> reachable_table T t -> all_bytes data ->
  (forall r1 r2 hs st, data = r1 ++ r2 -> rfc_block SP (dt_table t, dt_max t) r1 hs st -> ~ bad_index r2) ->
  exists res t', hpack_decode T t data = Ret (res, t').
Proof.
  intros HT Hr Hd H. pose proof (defined_iff T t data HT Hr Hd) as D.
  destruct (hpack_decode T t data) as [[res t']| | |]; try easy; eauto.
  destruct D as (r1 & r2 & hs & l & m & E & Hb & Hbad). exfalso. eapply H; eauto.
Qed.

Lemma bad_index_undefined T t r1 r2 hs st : huffman_tree = Ret T -> reachable_table T t ->
  all_bytes (r1 ++ r2) -> rfc_block SP (dt_table t, dt_max t) r1 hs st -> bad_index r2 ->
  hpack_decode T t (r1 ++ r2) = Undef.
Proof.
  intros HT Hr Hd Hb Hbad. pose proof (reachable_ok T t HT Hr) as Ht. apply tree_unique in HT. subst T.
  destruct (hpack_decode_outcome t _ Ht Hd)
    as [(hs' & t2 & E & Ht' & Hb')|(q1 & q2 & hs' & t2 & E & Hne & _ & Hb' & Ho)].
  - exfalso. refine (stuck_no_block SP server_profile_functional _ _ _ _ Hb _ _ _ _ Hb'). now apply bad_index_stuck.
  - destruct Ho as [(Eo & Hst & Hnb)|(Eo & _)]; [|exact Eo]. exfalso.
    assert (r2 = q2) as ->.
    { eapply (stuck_same _ server_profile_functional _ _ _ _ Hb _ _ _ r2 q2 Hb' E); auto. now apply bad_index_stuck. }
    easy.
Qed.

(** C16: a reference to an absent entry. *)
Lemma absent_index_rejected T t r1 hs l m b ib i rest : huffman_tree = Ret T -> reachable_table T t ->
  all_bytes (r1 ++ (b :: ib) ++ rest) ->
  rfc_block SP (dt_table t, dt_max t) r1 hs (l, m) ->
  (128 <= b /\ p_rfc_int SP 7 (b :: ib) i \/
   64 <= b < 128 /\ p_rfc_int SP 6 (b :: ib) i /\ i <> 0 \/
   0 <= b < 32 /\ p_rfc_int SP 4 (b :: ib) i /\ i <> 0) ->
  table_entry l i = None ->
  exists t', hpack_decode T t (r1 ++ (b :: ib) ++ rest) = Ret (Error ProtocolError, t').
Proof.
  intros HT Hr Hd Hb Hcase Hnone.
  pose proof (reachable_ok T t HT Hr) as Ht.
  assert (S : stuck SP (l, m) ((b :: ib) ++ rest)).
  { split; [easy|]. intros used rest' hs' st' E H.
    inversion H as [dyn max f rr i' h Hf' [Hi' _] Hte|dyn max f rr n vb v Hf' Hn Hv
                  |dyn max f rr n vb v Hf' Hn Hv|dyn max f rr n Hf' Hi' Hl']; subst;
      assert (f = b) by (cbn in E; now injection E); subst f.
    - destruct Hcase as [(_ & [Hi _])|[(? & _)|(? & _)]]; try lia.
      destruct (rfc_int_prefix_free _ _ _ Hi _ _ _ _ Hi' E) as (_ & _ & ->). congruence.
    - destruct Hcase as [(? & _)|[(_ & [Hi _] & Hz)|(? & _)]]; try lia.
      rewrite <- app_assoc in E. inversion Hn as [ib' i' h' [Hi' _] Hz' Hte E1 E2|ib' sb' s' [Hi' _] Hs' E1 E2]; subst.
      + destruct (rfc_int_prefix_free _ _ _ Hi _ _ _ _ Hi' E) as (_ & _ & ->). congruence.
      + rewrite <- E1, <- app_assoc in E.
        destruct (rfc_int_prefix_free _ _ _ Hi _ _ _ _ Hi' E) as (_ & _ & ->). easy.
    - destruct Hcase as [(? & _)|[(? & _)|(_ & [Hi _] & Hz)]]; try lia.
      rewrite <- app_assoc in E. inversion Hn as [ib' i' h' [Hi' _] Hz' Hte E1 E2|ib' sb' s' [Hi' _] Hs' E1 E2]; subst.
      + destruct (rfc_int_prefix_free _ _ _ Hi _ _ _ _ Hi' E) as (_ & _ & ->). congruence.
      + rewrite <- E1, <- app_assoc in E.
        destruct (rfc_int_prefix_free _ _ _ Hi _ _ _ _ Hi' E) as (_ & _ & ->). easy.
    - destruct Hcase as [(? & _)|[(? & _)|(? & _)]]; lia. }
  assert (NB : ~ bad_index ((b :: ib) ++ rest)).
  { apply (not_bad_index b (ib ++ rest) (if 128 <=? b then 7 else if 64 <=? b then 6 else 4)).
    - unfold index_prefix. destruct (128 <=? b) eqn:E1; [reflexivity|].
      destruct (64 <=? b) eqn:E2; [reflexivity|].
      replace (32 <=? b) with false by lia. reflexivity.
    - exists (b :: ib), rest, i. split; [reflexivity|].
      destruct Hcase as [(? & Hi)|[(? & Hi & _)|(? & Hi & _)]].
      + replace (128 <=? b) with true by lia. exact Hi.
      + replace (128 <=? b) with false by lia. replace (64 <=? b) with true by lia. exact Hi.
      + replace (128 <=? b) with false by lia. replace (64 <=? b) with false by lia. exact Hi. }
  pose proof HT as HT'. apply tree_unique in HT'. subst T.
  destruct (hpack_decode_outcome t _ Ht Hd)
    as [(hs' & t2 & E & Ht' & Hb')|(q1 & q2 & hs' & t2 & E & Hne & _ & Hb' & Ho)].
  - exfalso. exact (stuck_no_block SP server_profile_functional _ _ _ _ Hb _ _ _ S Hb').
  - destruct Ho as [(Eo & _)|(Eo & Hbad)]; [eauto|]. exfalso.
    assert (q2 = (b :: ib) ++ rest) as ->.
    { symmetry. eapply (stuck_same _ server_profile_functional _ _ _ _ Hb _ _ _ _ q2 Hb' E); auto. now apply bad_index_stuck. }
    easy.
Qed.

(** C17 *)
Lemma frugal_extends P st bs hss : frugal_blocks P st bs hss ->
  forall big, extends big st -> exists big1, rfc_blocks P big bs hss big1.
Proof.
  induction 1 as [st|st st' bs hss [(e & E) Hm] Hf IH|st b hs st1 bs hss Hb Hf IH]; intros big He.
  - exists big. constructor.
  - apply IH. destruct He as [(e' & E') Hm']. split; [|lia]. exists (e ++ e').
    now rewrite E', E, <- app_assoc.
  - destruct (block_extends _ _ _ _ _ Hb _ He) as (b1 & H1 & He1).
    destruct (IH _ He1) as (b2 & H2). exists b2. econstructor; eauto.
Qed.

Lemma frugal_client_decoded T blocks hss limit : huffman_tree = Ret T -> Forall all_bytes blocks ->
  0 <= limit <= 65536 -> frugal_blocks SP ([], limit) blocks hss ->
  exists t, decode_seq T (dt_init DEFAULT_MAX_TABLE_SIZE) blocks = Ret (Val hss, t).
Proof.
  intros HT Hb Hl H.
  destruct (frugal_extends _ _ _ _ H ([], 65536)) as ([l m] & H1).
  { split; cbn; [now exists []|lia]. }
  destruct (connection_complete T blocks hss l m HT Hb H1) as (t & E & _). eauto.
Qed.

Lemma connection_complete_strict T blocks hss l m : huffman_tree = Ret T -> Forall all_bytes blocks ->
  rfc_blocks limited_profile ([], 65536) blocks hss (l, m) ->
  exists t, decode_seq T (dt_init DEFAULT_MAX_TABLE_SIZE) blocks = Ret (Val hss, t) /\
    dt_table t = l /\ dt_max t = m.
Proof.
  intros HT Hb H. apply connection_complete; auto. eapply blocks_le; [|exact H].
  constructor; cbn; auto using strict_lenient. lia.
Qed.

Lemma reachable_table_bounds T t data res t' : huffman_tree = Ret T -> reachable_table T t -> all_bytes data ->
  hpack_decode T t data = Ret (res, t') -> table_size (dt_table t') <= 65536 /\ lenZ (dt_table t') <= 2048.
Proof.
  intros HT Hr Hd E. destruct (hpack_decode_table_bounds T t data res t' HT (reachable_ok _ _ HT Hr) Hd E)
    as [(_ & _ & _ & _ & Hf) Hm]. pose proof (table_size_count (dt_table t')). lia.
Qed.

Lemma frugal_of_blocks P st bs hss st' : rfc_blocks P st bs hss st' -> frugal_blocks P st bs hss.
Proof. induction 1; [apply frugal_nil|eapply frugal_cons; eauto]. Qed.

Lemma table_entry_none l i : table_entry l i = None <-> (i < 1 \/ 61 + lenZ l < i).
Proof.
  unfold table_entry. destruct (1 <=? i) eqn:E; [|split; [lia|auto]].
  rewrite nth_error_None, app_length. change (length rfc_static) with 61%nat. unfold lenZ. lia.
Qed.
