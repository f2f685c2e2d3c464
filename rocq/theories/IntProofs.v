(** Proofs about the HPACK integer codec. *)
From Verif Require Import BaseLemmas SpecInt IntCodec.

Lemma cont_val_nonneg bs w : cont_val bs w -> 0 <= w.
Proof. induction 1; lia. Qed.

Lemma cont_val_bytes bs w : cont_val bs w -> all_bytes bs.
Proof.
  induction 1; apply all_bytes_cons; split; unfold is_byte; try lia; try easy.
  constructor.
Qed.

Lemma rfc_int_bytes N bs v : rfc_int N bs v -> all_bytes bs.
Proof.
  destruct 1; apply all_bytes_cons; split; auto; [constructor|].
  eauto using cont_val_bytes.
Qed.

Lemma cont_val_fun bs w1 : cont_val bs w1 -> forall w2, cont_val bs w2 -> w1 = w2.
Proof.
  induction 1 as [b Hb|b bs v Hb Hc IH]; intros w2 H2; inversion H2; subst; try lia.
  all: try (f_equal; f_equal; auto).
Qed.

(** No representation is a proper prefix of another one. *)
Lemma cont_val_prefix_free a w : cont_val a w ->
  forall b w' x y, cont_val b w' -> a ++ x = b ++ y -> a = b /\ x = y.
Proof.
  induction 1 as [b Hb|b bs v Hb Hc IH]; intros c w' x y H2 E; inversion H2; subst;
    cbn in E; injection E; intros; subst; try lia; auto.
  match goal with H : cont_val ?l _, H' : _ ++ _ = ?l ++ _ |- _ =>
    destruct (IH _ _ _ _ H H') as [E1 E2] end.
  now subst.
Qed.

Lemma rfc_int_prefix_free N a v : rfc_int N a v ->
  forall b v' x y, rfc_int N b v' -> a ++ x = b ++ y -> a = b /\ x = y /\ v = v'.
Proof.
  intros H b v' x y H2 E.
  inversion H; subst; inversion H2; subst; cbn in E; injection E; intros; subst; auto; try lia.
  match goal with
  | H1 : cont_val ?p _, H2 : cont_val ?q _, H3 : ?p ++ _ = ?q ++ _ |- _ =>
    destruct (cont_val_prefix_free _ _ H1 _ _ _ _ H2 H3) as [E1 E2]; subst
  end.
  repeat split; auto. f_equal. eauto using cont_val_fun.
Qed.

Section Decode.

  Lemma decode_cont_step b r sum shift :
    is_byte b -> 0 <= sum <= UINT32_MAX -> 0 <= shift ->
    decode_cont (b :: r) sum shift =
    if shift >? 28 then (Error TooManyContinuationBytes, r)
    else if sum + (b mod 128) * 2 ^ shift >? UINT32_MAX then (Error IntegerOverflow, r)
    else if b <? 128 then (Val (sum + b * 2 ^ shift), r)
    else decode_cont r (sum + (b - 128) * 2 ^ shift) (shift + 7).
  Proof.
    unfold UINT32_MAX. intros Hb Hsum Hsh. cbn [decode_cont]. unfold UINT32_MAX.
    destruct (shift >? 28) eqn:Es; [reflexivity|].
    rewrite land_127.
    replace (u32 (4294967295 - sum)) with (4294967295 - sum) by (unfold u32; lia).
    rewrite Z.shiftr_div_pow2, Z.shiftl_mul_pow2 by lia.
    assert (P : 0 < 2 ^ shift) by (apply pow2_pos; lia).
    set (v := b mod 128). assert (Hv : 0 <= v < 128) by (subst v; lia).
    assert (E : (v >? (4294967295 - sum) / 2 ^ shift) = (sum + v * 2 ^ shift >? 4294967295)).
    { apply eq_true_iff_eq. rewrite !Z.gtb_lt. split; intros G.
      - destruct (Z.lt_ge_cases 4294967295 (sum + v * 2 ^ shift)); [easy|].
        exfalso. assert (v <= (4294967295 - sum) / 2 ^ shift); [|lia].
        apply Z.div_le_lower_bound; lia.
      - apply Z.div_lt_upper_bound; lia. }
    rewrite E.
    destruct (sum + v * 2 ^ shift >? 4294967295) eqn:Eo; [reflexivity|].
    assert (U1 : u32 (v * 2 ^ shift) = v * 2 ^ shift) by (unfold u32; apply Z.mod_small; nia).
    rewrite U1.
    assert (U2 : u32 (sum + v * 2 ^ shift) = sum + v * 2 ^ shift)
      by (unfold u32; apply Z.mod_small; nia).
    rewrite U2, land_128_zero by auto. unfold is_byte in Hb.
    destruct (b <? 128) eqn:Eb.
    - replace v with b by (subst v; lia). reflexivity.
    - replace v with (b - 128) by (subst v; lia). reflexivity.
  Qed.

  Lemma decode_cont_complete used w : cont_val used w ->
    forall r sum shift, 0 <= sum -> 0 <= shift ->
    sum + w * 2 ^ shift <= UINT32_MAX -> shift + 7 * lenZ used <= 35 ->
    decode_cont (used ++ r) sum shift = (Val (sum + w * 2 ^ shift), r).
  Proof.
    induction 1 as [b Hb|b bs v Hb Hc IH]; intros r sum shift Hs Hsh Hmax Hlen;
      rewrite lenZ_cons in Hlen; cbn [app];
      assert (P : 0 < 2 ^ shift) by (apply pow2_pos; lia);
      rewrite decode_cont_step; unfold is_byte; try lia; try nia.
    - rewrite lenZ_nil in Hlen.
      replace (shift >? 28) with false by lia.
      replace (b mod 128) with b by lia.
      replace (sum + b * 2 ^ shift >? UINT32_MAX) with false by lia.
      replace (b <? 128) with true by lia. reflexivity.
    - pose proof (cont_val_nonneg _ _ Hc).
      pose proof (lenZ_nonneg bs).
      assert (lenZ bs >= 1) by (inversion Hc; rewrite lenZ_cons;
          match goal with |- context [lenZ ?l] => pose proof (lenZ_nonneg l) end; lia).
      replace (shift >? 28) with false by lia.
      replace (b mod 128) with (b - 128) by lia.
      replace (sum + (b - 128) * 2 ^ shift >? UINT32_MAX) with false by nia.
      replace (b <? 128) with false by lia.
      assert (E7 : 2 ^ (shift + 7) = 2 ^ shift * 128)
        by (rewrite Z.pow_add_r by lia; reflexivity).
      rewrite IH; [rewrite E7; f_equal; f_equal; lia|nia|lia|rewrite E7; nia|lia].
    - pose proof (cont_val_nonneg _ _ Hc). nia.
  Qed.

  Definition cont_outcome (r : reader) (sum shift : Z)
      (res : expected int_error Z * reader) : Prop :=
    match res with
    | (Val v, rest) => exists used w, r = used ++ rest /\ cont_val used w /\
        v = sum + w * 2 ^ shift /\ v <= UINT32_MAX /\ shift + 7 * lenZ used <= 35
    | (Error NotEnoughBytes, _) =>
        forall used rest w, r = used ++ rest -> ~ cont_val used w
    | (Error IntegerOverflow, _) =>
        forall used rest w, r = used ++ rest -> cont_val used w ->
        sum + w * 2 ^ shift > UINT32_MAX
    | (Error TooManyContinuationBytes, _) =>
        forall used rest w, r = used ++ rest -> cont_val used w ->
        shift + 7 * lenZ used > 35
    end.

  Lemma decode_cont_outcome r : all_bytes r ->
    forall sum shift, 0 <= sum <= UINT32_MAX -> 0 <= shift -> shift mod 7 = 0 -> shift <= 35 ->
    cont_outcome r sum shift (decode_cont r sum shift).
  Proof.
    induction r as [|b r IH]; intros Hr sum shift Hs Hsh Hm H35.
    - cbn. intros used rest w E H. symmetry in E. apply app_eq_nil in E as [-> _]. inversion H.
    - apply all_bytes_cons in Hr as [Hb Hr].
      assert (P : 0 < 2 ^ shift) by (apply pow2_pos; lia).
      rewrite decode_cont_step by auto.
      assert (Hb' := Hb). unfold is_byte in Hb'.
      assert (HD : forall used rest w, b :: r = used ++ rest -> cont_val used w ->
        (b < 128 /\ used = [b] /\ w = b) \/
        (128 <= b /\ exists u w', used = b :: u /\ r = u ++ rest /\ cont_val u w' /\
           w = (b - 128) + 128 * w')).
      { intros used rest w E H. inversion H; subst; cbn in E; injection E; intros; subst.
        - left. repeat split; lia.
        - right. split; [lia|]. eauto 8. }
      destruct (shift >? 28) eqn:E1.
      { cbn [cont_outcome]. intros used rest w E H. assert (shift = 35) by lia.
        destruct (HD _ _ _ E H) as [(_ & -> & _)|(_ & u & w' & -> & _)];
        rewrite lenZ_cons; [rewrite lenZ_nil|pose proof (lenZ_nonneg u)]; lia. }
      destruct (sum + b mod 128 * 2 ^ shift >? UINT32_MAX) eqn:E2.
      { cbn [cont_outcome]. intros used rest w E H.
        destruct (HD _ _ _ E H) as [(? & -> & ->)|(? & u & w' & -> & _ & Hc & ->)].
        - replace (b mod 128) with b in E2 by lia. lia.
        - replace (b mod 128) with (b - 128) in E2 by lia.
          pose proof (cont_val_nonneg _ _ Hc). nia. }
      destruct (b <? 128) eqn:E3.
      { cbn [cont_outcome]. replace (b mod 128) with b in E2 by lia.
        exists [b], b. repeat split; auto; try lia.
        - constructor; lia.
        - rewrite lenZ_cons, lenZ_nil. lia. }
      replace (b mod 128) with (b - 128) in E2 by lia.
      assert (E7 : 2 ^ (shift + 7) = 2 ^ shift * 128)
        by (rewrite Z.pow_add_r by lia; reflexivity).
      assert (Hsum' : 0 <= sum + (b - 128) * 2 ^ shift <= UINT32_MAX) by nia.
      assert (Hsh' : 0 <= shift + 7) by lia.
      assert (Hmm : (shift + 7) mod 7 = 0) by lia.
      assert (H35' : shift + 7 <= 35) by lia.
      specialize (IH Hr _ (shift + 7) Hsum' Hsh' Hmm H35').
      destruct (decode_cont r _ _) as [[v|e] rest]; cbn [cont_outcome] in IH |- *.
      + destruct IH as (used & w & -> & Hc & -> & Hmax & Hlen).
        exists (b :: used), ((b - 128) + 128 * w). repeat split; auto.
        * constructor; [lia|auto].
        * rewrite E7; lia.
        * rewrite lenZ_cons. lia.
      + destruct e; intros used rest' w E H;
          destruct (HD _ _ _ E H) as [(? & -> & ->)|(? & u & w' & -> & -> & Hc & ->)];
          try lia.
        * eapply IH; eauto.
        * specialize (IH _ _ _ eq_refl Hc). rewrite E7 in IH. lia.
        * specialize (IH _ _ _ eq_refl Hc). rewrite lenZ_cons. lia.
  Qed.

  Lemma make_mask_eq N : 1 <= N <= 8 -> make_mask N = 2 ^ N - 1.
  Proof.
    intros H. assert (N = 1 \/ N = 2 \/ N = 3 \/ N = 4 \/ N = 5 \/ N = 6 \/ N = 7 \/ N = 8) as C by lia.
    repeat destruct C as [->|C]; try reflexivity. now rewrite C.
  Qed.

  Lemma int_decode_unfold N b r : 1 <= N <= 8 ->
    int_decode N (b :: r) =
    if b mod 2 ^ N =? 2 ^ N - 1 then decode_cont r (2 ^ N - 1) 0 else (Val (b mod 2 ^ N), r).
  Proof.
    intros H. unfold int_decode. cbn [read_byte].
    rewrite make_mask_eq, land_ones_mod by lia.
    destruct (b mod 2 ^ N =? 2 ^ N - 1) eqn:E; [|reflexivity].
    apply Z.eqb_eq in E. now rewrite E.
  Qed.

  Lemma pow2_le_256 N : 1 <= N <= 8 -> 2 <= 2 ^ N <= 256.
  Proof.
    intros H. assert (N = 1 \/ N = 2 \/ N = 3 \/ N = 4 \/ N = 5 \/ N = 6 \/ N = 7 \/ N = 8) as C by lia.
    repeat destruct C as [->|C]; try (cbn; lia). rewrite C. cbn; lia.
  Qed.

  Lemma int_decode_complete N used v r :
    1 <= N <= 8 -> rfc_int N used v -> v < 2 ^ 32 -> lenZ used <= 6 ->
    int_decode N (used ++ r) = (Val v, r).
  Proof.
    intros HN H Hv Hlen. pose proof (pow2_le_256 N HN).
    inversion H as [b Hb Hlt|b bs w Hb Heq Hc]; subst; cbn [app]; rewrite int_decode_unfold by auto.
    - replace (b mod 2 ^ N =? 2 ^ N - 1) with false by lia. reflexivity.
    - rewrite Heq, Z.eqb_refl. rewrite lenZ_cons in Hlen.
      rewrite (decode_cont_complete bs w Hc); [rewrite Z.mul_1_r; reflexivity|lia|lia| |lia].
      unfold UINT32_MAX. change (2 ^ 32) with 4294967296 in Hv. lia.
  Qed.

  Definition int_outcome (N : Z) (r : reader) (res : expected int_error Z * reader) : Prop :=
    match res with
    | (Val v, rest) => exists used, r = used ++ rest /\ rfc_int N used v /\
        v < 2 ^ 32 /\ (lenZ used <= 6)
    | (Error NotEnoughBytes, _) =>
        forall used rest v, r = used ++ rest -> ~ rfc_int N used v
    | (Error IntegerOverflow, _) =>
        forall used rest v, r = used ++ rest -> rfc_int N used v -> 2 ^ 32 <= v
    | (Error TooManyContinuationBytes, _) =>
        forall used rest v, r = used ++ rest -> rfc_int N used v -> 6 < lenZ used
    end.

  Lemma int_decode_outcome N r :
    1 <= N <= 8 -> all_bytes r -> int_outcome N r (int_decode N r).
  Proof.
    intros HN Hr. pose proof (pow2_le_256 N HN).
    destruct r as [|b r].
    - cbn. intros used rest v E H2. symmetry in E. apply app_eq_nil in E as [-> _]. inversion H2.
    - apply all_bytes_cons in Hr as [Hb Hr]. rewrite int_decode_unfold by auto.
      destruct (b mod 2 ^ N =? 2 ^ N - 1) eqn:E.
      + apply Z.eqb_eq in E.
        assert (Hs : 0 <= 2 ^ N - 1 <= UINT32_MAX) by (unfold UINT32_MAX; lia).
        pose proof (decode_cont_outcome r Hr (2 ^ N - 1) 0 Hs) as D.
        specialize (D ltac:(lia) eq_refl ltac:(lia)).
        assert (HD : forall used rest v, b :: r = used ++ rest -> rfc_int N used v ->
          exists u w, used = b :: u /\ r = u ++ rest /\ cont_val u w /\ v = 2 ^ N - 1 + w).
        { intros used rest v E2 H2. inversion H2; subst; cbn in E2; injection E2; intros; subst;
            [lia|eauto 8]. }
        destruct (decode_cont r _ _) as [[v|e] rest]; cbn [cont_outcome int_outcome] in D |- *.
        * destruct D as (used & w & -> & Hc & -> & Hmax & Hlen).
          exists (b :: used). change (2 ^ 0) with 1. rewrite Z.mul_1_r. repeat split.
          -- now constructor.
          -- unfold UINT32_MAX in Hmax. change (2 ^ 32) with 4294967296. lia.
          -- rewrite lenZ_cons. lia.
        * destruct e; intros used rest' v E2 H2.
          -- destruct (HD _ _ _ E2 H2) as (u & w & -> & -> & Hc & ->). eapply D; eauto.
          -- destruct (HD _ _ _ E2 H2) as (u & w & -> & -> & Hc & ->).
             specialize (D _ _ _ eq_refl Hc). change (2 ^ 0) with 1 in D.
             unfold UINT32_MAX in D. change (2 ^ 32) with 4294967296. lia.
          -- destruct (HD _ _ _ E2 H2) as (u & w & -> & -> & Hc & ->).
             specialize (D _ _ _ eq_refl Hc). rewrite lenZ_cons. lia.
      + apply Z.eqb_neq in E. cbn [int_outcome]. exists [b]. repeat split.
        * constructor; [auto|]. pose proof (Z.mod_pos_bound b (2 ^ N)). lia.
        * pose proof (Z.mod_pos_bound b (2 ^ N)). change (2 ^ 32) with 4294967296. lia.
        * cbn. lia.
  Qed.

  Lemma decode_cont_consumed r : forall sum shift, 0 <= shift -> shift mod 7 = 0 -> shift <= 35 ->
    exists used, r = used ++ snd (decode_cont r sum shift) /\ shift + 7 * lenZ used <= 42.
  Proof.
    induction r as [|b r IH]; intros sum shift H0 Hm H35.
    - exists []. split; [easy|]. change (lenZ (@nil Z)) with 0. lia.
    - cbn [decode_cont]. destruct (shift >? 28) eqn:E.
      { exists [b]. split; [easy|]. change (lenZ [b]) with 1. lia. }
      match goal with |- context [if ?c then _ else _] => destruct c end. { exists [b]. split; [easy|]. change (lenZ [b]) with 1. lia. }
      match goal with |- context [if ?c then _ else _] => destruct c end. { exists [b]. split; [easy|]. change (lenZ [b]) with 1. lia. }
      match goal with |- context [decode_cont r ?s ?sh] =>
        destruct (IH s sh) as (used & Eu & Hl); try lia end.
      exists (b :: used). split; [cbn [app]; now f_equal|]. rewrite lenZ_cons. lia.
  Qed.

  (** At most seven octets are consumed, whatever the outcome. *)
  Lemma int_decode_consumed N r :
    exists used, r = used ++ snd (int_decode N r) /\ lenZ used <= 7.
  Proof.
    destruct r as [|b r].
    - exists []. split; [easy|]. change (lenZ (@nil Z)) with 0. lia.
    - unfold int_decode. cbn [read_byte]. destruct (_ =? _).
      + destruct (decode_cont_consumed r (Z.land b (make_mask N)) 0) as (u & E & H); try lia.
        exists (b :: u). split; [cbn [app]; now f_equal|]. rewrite lenZ_cons. lia.
      + exists [b]. split; [easy|]. change (lenZ [b]) with 1. lia.
  Qed.
End Decode.

Section Encode.
  Lemma encode_cont_spec fuel : forall value, 0 <= value < 128 ^ Z.of_nat fuel ->
    (1 <= fuel)%nat ->
    exists bs, encode_cont fuel value = Ret bs /\ cont_val bs value /\ lenZ bs <= Z.of_nat fuel /\
      (forall bs', cont_val bs' value -> lenZ bs <= lenZ bs').
  Proof.
    induction fuel as [|f IH]; intros value Hv Hf; [lia|].
    cbn [encode_cont]. destruct (value >=? 128) eqn:E.
    - assert (Hf1 : (1 <= f)%nat).
      { destruct f; [|lia]. change (Z.of_nat 1) with 1 in Hv. rewrite Z.pow_1_r in Hv. lia. }
      rewrite Z.shiftr_div_pow2 by lia. change (2 ^ 7) with 128.
      assert (Hd : 0 <= value / 128 < 128 ^ Z.of_nat f).
      { split; [lia|]. apply Z.div_lt_upper_bound; [lia|].
        replace (Z.of_nat (S f)) with (1 + Z.of_nat f) in Hv by lia.
        rewrite Z.pow_add_r in Hv by lia. lia. }
      destruct (IH _ Hd Hf1) as (bs & -> & Hc & Hl & Hmin). cbn [obind].
      rewrite land_127, Z.lor_comm, (lor_disjoint_add 128 (value mod 128) 7) by (cbn; lia).
      replace (u8 (128 + value mod 128)) with (128 + value mod 128) by (unfold u8; lia).
      eexists. split; [reflexivity|]. split; [|split].
      + replace value with ((128 + value mod 128 - 128) + 128 * (value / 128)) at 2 by lia.
        constructor; [lia|auto].
      + rewrite lenZ_cons. lia.
      + intros bs' H'. inversion H' as [b0 Hb0 E1 E2|b0 bs0 v0 Hb0 Hc0 E1 E2]; [lia|].
        rewrite !lenZ_cons.
        assert (v0 = value / 128) as -> by lia. specialize (Hmin _ Hc0). lia.
    - replace (u8 value) with value by (unfold u8; lia).
      eexists. split; [reflexivity|]. split; [|split].
      + constructor. lia.
      + rewrite lenZ_cons, lenZ_nil. lia.
      + intros bs' H'. inversion H'; subst; rewrite !lenZ_cons, lenZ_nil;
        try match goal with |- context [lenZ ?l] => pose proof (lenZ_nonneg l) end; lia.
  Qed.

  Lemma int_encode_spec N v : 1 <= N <= 8 -> 0 <= v < 2 ^ 32 ->
    exists b rest, int_encode v N = Ret (b :: rest) /\ 0 <= b < 2 ^ N /\
      rfc_int N (b :: rest) v /\ lenZ (b :: rest) <= 6 /\
      (forall bs', rfc_int N bs' v -> lenZ (b :: rest) <= lenZ bs').
  Proof.
    intros HN Hv. change (2 ^ 32) with 4294967296 in Hv.
    pose proof (pow2_le_256 N HN) as HP.
    unfold int_encode.
    replace ((N =? 0) || (N >? 8)) with false by lia.
    rewrite Z.shiftl_mul_pow2, Z.mul_1_l by lia.
    destruct (v <? 2 ^ N - 1) eqn:E.
    - replace (u8 v) with v by (unfold u8; lia).
      exists v, []. change (lenZ [v]) with 1.
      assert (v mod 2 ^ N = v) as Hm by (apply Z.mod_small; lia).
      repeat split; try lia.
      + assert (R : rfc_int N [v] (v mod 2 ^ N)) by (constructor; [unfold is_byte; lia|lia]).
        now rewrite Hm in R.
      + intros bs' H'. inversion H'; rewrite lenZ_cons;
        try match goal with |- context [lenZ ?l] => pose proof (lenZ_nonneg l) end; lia.
    - replace (u32 (v - (2 ^ N - 1))) with (v - (2 ^ N - 1)) by (unfold u32; lia).
      destruct (encode_cont_spec 5 (v - (2 ^ N - 1))) as (bs & -> & Hc & Hl & Hmin).
      { change (128 ^ Z.of_nat 5) with 34359738368. lia. }
      { lia. }
      cbn [obind]. replace (u8 (2 ^ N - 1)) with (2 ^ N - 1) by (unfold u8; lia).
      exists (2 ^ N - 1), bs. repeat split; try lia.
      + assert (R : rfc_int N ((2 ^ N - 1) :: bs) (2 ^ N - 1 + (v - (2 ^ N - 1)))).
        { constructor; [unfold is_byte; lia| |auto]. apply Z.mod_small. lia. }
        replace (2 ^ N - 1 + (v - (2 ^ N - 1))) with v in R by lia. exact R.
      + rewrite lenZ_cons. lia.
      + intros bs' H'. inversion H' as [b' Hb' Hlt|b' r' w Hb' Heq Hc']; subst.
        * lia.
        * rewrite !lenZ_cons. replace w with (2 ^ N - 1 + w - (2 ^ N - 1)) in Hc' by lia.
          specialize (Hmin _ Hc'). lia.
  Qed.

  Lemma int_encode_throws N v : 0 <= N < 256 -> (int_encode v N = Throw <-> N = 0 \/ 8 < N).
  Proof.
    intros HN. unfold int_encode. destruct ((N =? 0) || (N >? 8)) eqn:E; [split; [lia|easy]|].
    split; [|lia]. destruct (v <? _); [easy|].
    set (x := u32 _). clearbody x.
    assert (forall f y, encode_cont f y <> Throw) as HT.
    { induction f; intros y; cbn; [easy|]. destruct (y >=? 128); [|easy].
      specialize (IHf (Z.shiftr y 7)). destruct (encode_cont f _); cbn; easy. }
    specialize (HT 5%nat x). destruct (encode_cont 5 x); cbn; easy.
  Qed.

  (** Any flag bits may be put in front of the prefix. *)
  Lemma rfc_int_flags N b rest v flags :
    1 <= N <= 8 -> rfc_int N (b :: rest) v -> is_byte (flags + b) -> flags mod 2 ^ N = 0 ->
    rfc_int N ((flags + b) :: rest) v.
  Proof.
    intros HN H Hb Hf. pose proof (pow2_le_256 N HN).
    assert (E : (flags + b) mod 2 ^ N = b mod 2 ^ N).
    { rewrite Z.add_mod, Hf, Z.add_0_l, Z.mod_mod by lia. reflexivity. }
    inversion H; subst.
    - rewrite <- E. constructor; [auto|]. rewrite E. auto.
    - constructor; auto. now rewrite E.
  Qed.

  Lemma int_roundtrip N v flags suffix :
    1 <= N <= 8 -> 0 <= v < 2 ^ 32 -> 0 <= flags < 256 -> flags mod 2 ^ N = 0 ->
    exists b rest, int_encode v N = Ret (b :: rest) /\
      int_decode N ((flags + b) :: rest ++ suffix) = (Val v, suffix).
  Proof.
    intros HN Hv Hf Hm. pose proof (pow2_le_256 N HN).
    destruct (int_encode_spec N v HN Hv) as (b & rest & E & Hb & Hr & Hl & _).
    exists b, rest. split; [auto|].
    assert (is_byte (flags + b)).
    { unfold is_byte. assert (N = 1 \/ N = 2 \/ N = 3 \/ N = 4 \/ N = 5 \/ N = 6 \/ N = 7 \/ N = 8) as C by lia.
      repeat destruct C as [->|C]; try subst N; cbn in *; lia. }
    apply (int_decode_complete N ((flags + b) :: rest) v suffix HN).
    - now apply rfc_int_flags.
    - lia.
    - rewrite !lenZ_cons in *. lia.
  Qed.
End Encode.
