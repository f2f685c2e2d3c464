(** Facts about the RFC 7541 relation: representations are prefix free, blocks are
    deterministic, resource bounds, smaller tables. No model involved. *)
From Verif Require Import Base BaseLemmas SpecInt IntCodec IntProofs SpecHuffman HuffmanProofs
  SpecTable DynTableProofs SpecHpack.

Definition huff_functional (P : profile) : Prop :=
  forall p s s', all_bytes s -> all_bytes s' -> p_huff P p s -> p_huff P p s' -> s = s'.

Lemma lenient_functional p s s' : all_bytes s -> all_bytes s' ->
  huff_lenient p s -> huff_lenient p s' -> s = s'.
Proof.
  intros Hs Hs' (t & E & N & _) (t' & E' & N' & _). rewrite E in E'.
  now apply split_unique in E'.
Qed.
Lemma rfc_profile_functional L : huff_functional (rfc_profile L).
Proof.
  intros p s s' Hs Hs' H H'. cbn in *. eapply lenient_functional; eauto using strict_lenient.
Qed.
Lemma server_profile_functional : huff_functional server_profile.
Proof. intros p s s' Hs Hs' H H'. cbn in *. eapply lenient_functional; eauto. Qed.

Section Det.
  Variable P : profile.
  Hypothesis HF : huff_functional P.

  Lemma string_nonempty bs s : rfc_string P bs s -> exists b r, bs = b :: r /\ is_byte b.
  Proof.
    destruct 1 as [b ib s [H _] _ _ _|b ib p s [H _] _ _ _ _ _]; cbn [app]; exists b; eexists;
      (split; [reflexivity|]); apply rfc_int_bytes in H; now apply all_bytes_cons in H.
  Qed.

  Lemma string_bytes bs s : rfc_string P bs s -> all_bytes bs /\ all_bytes s.
  Proof.
    destruct 1 as [b ib s [H _] _ Hs _|b ib p s [H _] _ Hp Hs _ _];
      apply rfc_int_bytes in H; split; auto; apply all_bytes_app; auto.
  Qed.

  Lemma string_det bs s : rfc_string P bs s -> forall bs' s' x y, rfc_string P bs' s' ->
    bs ++ x = bs' ++ y -> bs = bs' /\ s = s' /\ x = y.
  Proof.
    intros H bs' s' x y H' E.
    destruct H as [b ib s [Hi _] Hb Hs Hl|b ib p s [Hi _] Hb Hp Hs Hh Hl];
    destruct H' as [b' ib' s' [Hi' _] Hb' Hs' Hl'|b' ib' p' s' [Hi' _] Hb' Hp' Hs' Hh' Hl'];
    rewrite <- !app_assoc in E;
    try (cbn in E; injection E; intros; subst; lia);
    destruct (rfc_int_prefix_free _ _ _ Hi _ _ _ _ Hi' E) as (E1 & E2 & E3); rewrite E1.
    - apply app_inj_len in E2 as [-> ->]; [auto|unfold lenZ in E3; lia].
    - apply app_inj_len in E2 as [-> ->]; [|unfold lenZ in E3; lia].
      repeat split. eapply HF; eauto.
  Qed.

  Lemma name_nonempty N dyn bs n : rfc_name P N dyn bs n -> exists b r, bs = b :: r /\ is_byte b.
  Proof.
    destruct 1 as [ib i h [H _] _ _|ib sb s [H _] _].
    all: pose proof (rfc_int_bytes _ _ _ H) as HB; inversion H; subst; cbn [app];
      apply all_bytes_cons in HB as [HB _]; eauto.
  Qed.

  Lemma name_det N dyn bs n : rfc_name P N dyn bs n -> forall bs' n' x y, rfc_name P N dyn bs' n' ->
    bs ++ x = bs' ++ y -> bs = bs' /\ n = n' /\ x = y.
  Proof.
    intros H bs' n' x y H' E.
    destruct H as [ib i h [Hi _] Hz Ht|ib sb s [Hi _] Hs];
    destruct H' as [ib' i' h' [Hi' _] Hz' Ht'|ib' sb' s' [Hi' _] Hs'];
    rewrite <- ?app_assoc in E;
    destruct (rfc_int_prefix_free _ _ _ Hi _ _ _ _ Hi' E) as (E1 & E2 & E3); subst.
    - rewrite Ht in Ht'. injection Ht' as <-. auto.
    - easy.
    - easy.
    - destruct (string_det _ _ Hs _ _ _ _ Hs' E2) as (-> & -> & ->). auto.
  Qed.

  Lemma repr_nonempty st bs hs st' : rfc_repr P st bs hs st' -> exists b r, bs = b :: r /\ is_byte b.
  Proof.
    destruct 1; cbn [app]; do 2 eexists; (split; [reflexivity|]); unfold is_byte; lia.
  Qed.

  Lemma repr_det st bs hs st1 : rfc_repr P st bs hs st1 ->
    forall bs' hs' st1' x y, rfc_repr P st bs' hs' st1' ->
    bs ++ x = bs' ++ y -> bs = bs' /\ hs = hs' /\ st1 = st1' /\ x = y.
  Proof.
    intros H bs' hs' st1' x y H' E.
    destruct H as [dyn max f r i h Hf [Hi _] Ht|dyn max f r n vb v Hf Hn Hv
                  |dyn max f r n vb v Hf Hn Hv|dyn max f r n Hf [Hi _] Hl];
    inversion H' as [? ? f' r' i' h' Hf' [Hi' _] Ht'|? ? f' r' n' vb' v' Hf' Hn' Hv'
                  |? ? f' r' n' vb' v' Hf' Hn' Hv'|? ? f' r' n' Hf' [Hi' _] Hl']; subst;
    rewrite <- ?app_assoc in E;
    try (exfalso; cbn in E; injection E; intros; subst; lia).
    - destruct (rfc_int_prefix_free _ _ _ Hi _ _ _ _ Hi' E) as (E1 & E2 & E3).
      rewrite E1. subst. rewrite Ht in Ht'. injection Ht' as <-. auto.
    - destruct (name_det _ _ _ _ Hn _ _ _ _ Hn' E) as (E1 & -> & E2).
      destruct (string_det _ _ Hv _ _ _ _ Hv' E2) as (-> & -> & ->). rewrite E1. auto.
    - destruct (name_det _ _ _ _ Hn _ _ _ _ Hn' E) as (E1 & -> & E2).
      destruct (string_det _ _ Hv _ _ _ _ Hv' E2) as (-> & -> & ->). rewrite E1. auto.
    - destruct (rfc_int_prefix_free _ _ _ Hi _ _ _ _ Hi' E) as (E1 & -> & ->).
      rewrite E1. auto.
  Qed.

  Lemma block_inv st bs hs st1 : rfc_block P st bs hs st1 ->
    (bs = [] /\ hs = [] /\ st1 = st) \/
    exists a ha sta b hb, bs = a ++ b /\ hs = ha ++ hb /\
      rfc_repr P st a ha sta /\ rfc_block P sta b hb st1.
  Proof. destruct 1; [left; auto|right; eauto 10]. Qed.

  Lemma block_det st bs hs st1 : rfc_block P st bs hs st1 ->
    forall hs' st1', rfc_block P st bs hs' st1' -> hs = hs' /\ st1 = st1'.
  Proof.
    induction 1 as [st|st bs hs st1 bs2 hs2 st2 Hr Hb IH]; intros hs' st1' H';
      destruct (block_inv _ _ _ _ H') as [(E1 & E2 & E3)|(a & ha & sta & b & hb & E1 & E2 & Ha & Hb')].
    - subst; auto.
    - symmetry in E1. apply app_eq_nil in E1 as [-> _].
      apply repr_nonempty in Ha as (? & ? & ? & _). easy.
    - apply app_eq_nil in E1 as [-> _].
      apply repr_nonempty in Hr as (? & ? & ? & _). easy.
    - destruct (repr_det _ _ _ _ Ha _ _ _ _ _ Hr (eq_sym E1)) as (-> & -> & -> & ->).
      destruct (IH _ _ Hb') as [-> ->]. auto.
  Qed.

  Lemma blocks_det st bs hs st1 : rfc_blocks P st bs hs st1 ->
    forall hs' st1', rfc_blocks P st bs hs' st1' -> hs = hs' /\ st1 = st1'.
  Proof.
    induction 1 as [st|st b hs st1 bs hss st2 Hb Hbs IH]; intros hs' st1' H'; inversion H'; subst.
    - auto.
    - match goal with Hx : rfc_block P st b ?h ?s |- _ =>
        destruct (block_det _ _ _ _ Hb _ _ Hx) as [-> ->] end.
      match goal with Hx : rfc_blocks P _ bs ?h ?s |- _ => destruct (IH _ _ Hx) as [-> ->] end.
      auto.
  Qed.

  (** No representation starts at [bs]. *)
  Definition stuck (st : tstate) (bs : bytes) : Prop :=
    bs <> [] /\ forall used rest hs st', bs = used ++ rest -> ~ rfc_repr P st used hs st'.

  Lemma stuck_no_block st b1 hs st1 : rfc_block P st b1 hs st1 ->
    forall b2 hs' st', stuck st1 b2 -> ~ rfc_block P st (b1 ++ b2) hs' st'.
  Proof.
    induction 1 as [st|st bs hs st1 bs2 hs2 st2 Hr Hb IH]; intros b2 hs' st' [Hne Hst] H';
      destruct (block_inv _ _ _ _ H') as [(E1 & E2 & E3)|(a & ha & sta & b & hb & E1 & E2 & Ha & Hb')].
    - easy.
    - eapply Hst; [exact E1|exact Ha].
    - apply app_eq_nil in E1 as [E1 _]. apply app_eq_nil in E1 as [-> _].
      apply repr_nonempty in Hr as (? & ? & ? & _). easy.
    - rewrite <- app_assoc in E1.
      destruct (repr_det _ _ _ _ Ha _ _ _ _ _ Hr (eq_sym E1)) as (-> & -> & -> & ->).
      eapply IH; [split; eauto|exact Hb'].
  Qed.

  Lemma block_app st b1 hs1 st1 : rfc_block P st b1 hs1 st1 ->
    forall b2 hs2 st2, rfc_block P st1 b2 hs2 st2 -> rfc_block P st (b1 ++ b2) (hs1 ++ hs2) st2.
  Proof.
    induction 1 as [st|st bs hs st1 bs2 hs2 st2 Hr Hb IH]; intros b2 hs3 st3 H'; [exact H'|].
    rewrite <- !app_assoc. econstructor; eauto.
  Qed.

  Lemma block_one st bs hs st' : rfc_repr P st bs hs st' -> rfc_block P st bs hs st'.
  Proof.
    intros H. rewrite <- (app_nil_r bs), <- (app_nil_r hs).
    econstructor; [exact H|constructor].
  Qed.
End Det.

(** ** Profiles *)
Record profile_le (P Q : profile) : Prop := {
  ple_huff : forall p s, p_huff P p s -> p_huff Q p s;
  ple_string : forall n, p_string P n -> p_string Q n;
  ple_int : forall bs v, p_int P bs v -> p_int Q bs v;
  ple_limit : p_limit P <= p_limit Q
}.

Section Mono.
  Variables P Q : profile.
  Hypothesis L : profile_le P Q.

  Lemma pint_le N bs v : p_rfc_int P N bs v -> p_rfc_int Q N bs v.
  Proof. intros [H1 H2]. split; auto. now apply (ple_int _ _ L). Qed.
  Lemma string_le bs s : rfc_string P bs s -> rfc_string Q bs s.
  Proof.
    destruct 1.
    - apply string_raw; auto using pint_le. now apply (ple_string _ _ L).
    - eapply string_huffman; eauto using pint_le; [now apply (ple_huff _ _ L)|now apply (ple_string _ _ L)].
  Qed.
  Lemma name_le N dyn bs n : rfc_name P N dyn bs n -> rfc_name Q N dyn bs n.
  Proof. destruct 1; [eapply name_indexed|eapply name_literal]; eauto using pint_le, string_le. Qed.
  Lemma repr_le st bs hs st' : rfc_repr P st bs hs st' -> rfc_repr Q st bs hs st'.
  Proof.
    destruct 1; [eapply repr_indexed|eapply repr_incremental|eapply repr_literal|eapply repr_size_update];
      eauto using pint_le, name_le, string_le. pose proof (ple_limit _ _ L). lia.
  Qed.
  Lemma block_le st bs hs st' : rfc_block P st bs hs st' -> rfc_block Q st bs hs st'.
  Proof. induction 1; econstructor; eauto using repr_le. Qed.
  Lemma blocks_le st bs hs st' : rfc_blocks P st bs hs st' -> rfc_blocks Q st bs hs st'.
  Proof. induction 1; econstructor; eauto using block_le. Qed.
End Mono.

(** ** A decoder whose table extends the encoder's *)
Section Extend.
  Variable P : profile.
  Definition extends (big small : tstate) : Prop :=
    (exists e, fst big = fst small ++ e) /\ snd small <= snd big.

  Lemma table_entry_extends dyn e i h :
    table_entry dyn i = Some h -> table_entry (dyn ++ e) i = Some h.
  Proof.
    unfold table_entry. destruct (1 <=? i); [|easy]. intros H.
    rewrite app_assoc, nth_error_app1; [exact H|]. apply nth_error_Some. congruence.
  Qed.

  Lemma name_extends N dyn e bs n : rfc_name P N dyn bs n -> rfc_name P N (dyn ++ e) bs n.
  Proof.
    destruct 1; [eapply name_indexed|eapply name_literal]; eauto using table_entry_extends.
  Qed.

  Lemma repr_extends st bs hs st1 : rfc_repr P st bs hs st1 ->
    forall big, extends big st -> exists big1, rfc_repr P big bs hs big1 /\ extends big1 st1.
  Proof.
    intros H [bd bm] [(e & E) Hm]. destruct H; cbn [fst snd] in *; subst bd.
    - eexists. split; [eapply repr_indexed; eauto using table_entry_extends|].
      split; cbn; eauto.
    - eexists. split; [eapply repr_incremental; eauto using name_extends|].
      split; cbn [fst snd]; [|lia].
      apply (fit_mono (Hdr n v :: dyn) (Hdr n v :: dyn ++ e)); [lia|now exists e].
    - eexists. split; [eapply repr_literal; eauto using name_extends|].
      split; cbn; eauto.
    - eexists. split; [eapply repr_size_update; eauto|].
      split; cbn [fst snd]; [|lia]. apply fit_mono; [lia|eauto].
  Qed.

  Lemma block_extends st bs hs st1 : rfc_block P st bs hs st1 ->
    forall big, extends big st -> exists big1, rfc_block P big bs hs big1 /\ extends big1 st1.
  Proof.
    induction 1 as [st|st bs hs st1 bs2 hs2 st2 Hr Hb IH]; intros big He.
    - eexists. split; [constructor|exact He].
    - destruct (repr_extends _ _ _ _ Hr _ He) as (b1 & H1 & He1).
      destruct (IH _ He1) as (b2 & H2 & He2). eexists. split; [econstructor; eauto|exact He2].
  Qed.

  Lemma blocks_extends st bs hs st1 : rfc_blocks P st bs hs st1 ->
    forall big, extends big st -> exists big1, rfc_blocks P big bs hs big1 /\ extends big1 st1.
  Proof.
    induction 1 as [st|st b hs st1 bs hss st2 Hr Hb IH]; intros big He.
    - eexists. split; [constructor|exact He].
    - destruct (block_extends _ _ _ _ Hr _ He) as (b1 & H1 & He1).
      destruct (IH _ He1) as (b2 & H2 & He2). eexists. split; [econstructor; eauto|exact He2].
  Qed.
End Extend.

(** ** Resource bounds of the server profile *)
Definition small_header (h : header) : Prop := lenZ (h_name h) <= 4096 /\ lenZ (h_value h) <= 4096.
Definition small_state (st : tstate) : Prop :=
  Forall small_header (fst st) /\ table_size (fst st) <= snd st /\ 0 <= snd st <= 65536.

Lemma static_small : Forall small_header rfc_static.
Proof.
  apply Forall_forall. intros h H.
  assert (F : forallb (fun h => (lenZ (h_name h) <=? 4096) && (lenZ (h_value h) <=? 4096)) rfc_static = true)
    by (vm_compute; reflexivity).
  rewrite forallb_forall in F. apply F in H. unfold small_header. lia.
Qed.

Lemma table_entry_in dyn i h : table_entry dyn i = Some h -> In h (rfc_static ++ dyn).
Proof. unfold table_entry. destruct (1 <=? i); [|easy]. apply nth_error_In. Qed.

Lemma table_entry_small dyn i h : Forall small_header dyn -> table_entry dyn i = Some h -> small_header h.
Proof.
  intros Hd H. apply table_entry_in in H. apply in_app_or in H as [H|H].
  - pose proof static_small as S. rewrite Forall_forall in S. auto.
  - rewrite Forall_forall in Hd. auto.
Qed.

Lemma fit_Forall (Q : header -> Prop) l : forall m, Forall Q l -> Forall Q (fit m l).
Proof.
  intros m H. destruct (fit_prefix l m) as (e & E). rewrite E in H. now apply Forall_app in H.
Qed.

Lemma string_small bs s : rfc_string server_profile bs s -> lenZ s <= 4096.
Proof. destruct 1; assumption. Qed.

Lemma name_small N dyn bs n : Forall small_header dyn ->
  rfc_name server_profile N dyn bs n -> lenZ n <= 4096.
Proof.
  intros Hd H. destruct H as [ib i h _ _ Ht|ib sb s _ Hs]; [|eauto using string_small].
  eapply table_entry_small in Ht; [|eauto]. apply Ht.
Qed.

Lemma rfc_int_nonneg N bs v : 1 <= N <= 8 -> rfc_int N bs v -> 0 <= v.
Proof.
  intros HN H. pose proof (pow2_le_256 N HN). destruct H.
  - apply Z.mod_pos_bound. lia.
  - pose proof (cont_val_nonneg _ _ H2). lia.
Qed.

Lemma repr_small st bs hs st1 : rfc_repr server_profile st bs hs st1 -> small_state st ->
  small_state st1 /\ Forall small_header hs /\ (length hs <= 1 <= length bs)%nat.
Proof.
  intros H (Hd & Hs & Hm). destruct H as [dyn max f r i h Hf [Hi _] Ht|dyn max f r n vb v Hf Hn Hv
                  |dyn max f r n vb v Hf Hn Hv|dyn max f r n Hf [Hi _] Hl]; cbn [fst snd] in *.
  - repeat split; auto; cbn; try lia. repeat constructor; eapply table_entry_small; eauto.
  - assert (small_header (Hdr n v)) by (split; cbn; eauto using name_small, string_small).
    split; [|split; [auto|cbn; lia]].
    repeat split; cbn [fst snd]; try lia.
    + apply fit_Forall. auto.
    + apply fit_size. lia.
  - assert (small_header (Hdr n v)) by (split; cbn; eauto using name_small, string_small).
    repeat split; auto; cbn; lia.
  - apply rfc_int_nonneg in Hi; [|lia]. cbn in Hl.
    repeat split; cbn [fst snd length]; try lia; auto.
    + now apply fit_Forall.
    + apply fit_size. lia.
Qed.

Lemma block_small st bs hs st1 : rfc_block server_profile st bs hs st1 -> small_state st ->
  small_state st1 /\ Forall small_header hs /\ (length hs <= length bs)%nat.
Proof.
  induction 1 as [st|st bs hs st1 bs2 hs2 st2 Hr Hb IH]; intros Hs.
  - repeat split; auto; apply Hs.
  - destruct (repr_small _ _ _ _ Hr Hs) as (H1 & H2 & H3).
    destruct (IH H1) as (H4 & H5 & H6). split; [auto|]. split; [apply Forall_app; auto|].
    rewrite !app_length. lia.
Qed.

Lemma blocks_small st bs hss st1 : rfc_blocks server_profile st bs hss st1 -> small_state st ->
  small_state st1 /\ Forall (Forall small_header) hss /\
  Forall2 (fun b hs => length hs <= length b)%nat bs hss.
Proof.
  induction 1 as [st|st b hs st1 bs hss st2 Hr Hb IH]; intros Hs; [auto|].
  destruct (block_small _ _ _ _ Hr Hs) as (H1 & H2 & H3). destruct (IH H1) as (H4 & H5 & H6).
  auto.
Qed.

(** Two ways of reading the same octets stop at the same place. *)
Lemma stuck_same P : huff_functional P -> forall st a ha sta, rfc_block P st a ha sta ->
  forall b hb stb x y, rfc_block P st b hb stb -> a ++ x = b ++ y ->
  stuck P sta x -> stuck P stb y -> x = y.
Proof.
  intros HP st0 a ha sta Ha. induction Ha as [s0|s0 bs0 hs0 s1 bs2 hs2 s2 Hr0 Hb0 IH];
    intros b0 hb stb x y Hbb Exy [Sx1 Sx2] [Sy1 Sy2];
    destruct (block_inv _ _ _ _ _ Hbb) as [(E1 & E2 & E3)|(a' & ha' & sta' & b' & hb' & E1 & E2 & Ha' & Hb1)].
  - subst b0. exact Exy.
  - subst b0. rewrite <- app_assoc in Exy. exfalso. eapply Sx2; [exact Exy|exact Ha'].
  - subst b0 stb. rewrite <- app_assoc in Exy. cbn [app] in Exy.
    exfalso. eapply Sy2; [symmetry; exact Exy|exact Hr0].
  - subst b0. rewrite <- !app_assoc in Exy.
    destruct (repr_det _ HP _ _ _ _ Hr0 _ _ _ _ _ Ha' Exy) as (-> & -> & -> & E4).
    eapply IH; [exact Hb1|exact E4|split; auto|split; auto].
Qed.
