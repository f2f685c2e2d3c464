From Verif Require Import Base BaseLemmas SpecFrames HpackDec Frames.

Lemma land_ones_mod x n : 0 <= n -> Z.land x (2 ^ n - 1) = x mod 2 ^ n.
Proof.
  intros H. replace (2 ^ n - 1) with (Z.ones n) by (rewrite Z.ones_equiv; lia). now apply Z.land_ones.
Qed.
Lemma land_255 x : Z.land x 255 = x mod 256.
Proof. exact (land_ones_mod x 8 ltac:(lia)). Qed.
Lemma land_31 x : Z.land x 2147483647 = x mod 2147483648.
Proof. exact (land_ones_mod x 31 ltac:(lia)). Qed.

Lemma load16 a b : is_byte a -> is_byte b -> load_uint16_be a b = 256 * a + b.
Proof.
  unfold is_byte, load_uint16_be. intros Ha Hb. rewrite Z.shiftl_mul_pow2 by lia.
  change (2 ^ 8) with 256.
  rewrite (lor_disjoint_add (a * 256) b 8); [lia|lia|change (2 ^ 8) with 256; apply Z.mod_mul; lia|exact Hb].
Qed.

Lemma load24 a b c : is_byte a -> is_byte b -> is_byte c ->
  load_uint24_be a b c = 65536 * a + 256 * b + c.
Proof.
  unfold is_byte, load_uint24_be. intros Ha Hb Hc. rewrite !Z.shiftl_mul_pow2 by lia.
  change (2 ^ 8) with 256. change (2 ^ 16) with 65536.
  rewrite (lor_disjoint_add (a * 65536) (b * 256) 16);
    [|lia|change (2 ^ 16) with 65536; apply Z.mod_mul; lia|change (2 ^ 16) with 65536; lia].
  rewrite (lor_disjoint_add _ c 8); [lia|lia|change (2 ^ 8) with 256; lia|exact Hc].
Qed.

Lemma load32 a b c d : is_byte a -> is_byte b -> is_byte c -> is_byte d ->
  load_uint32_be a b c d = 16777216 * a + 65536 * b + 256 * c + d.
Proof.
  unfold is_byte, load_uint32_be. intros Ha Hb Hc Hd. rewrite !Z.shiftl_mul_pow2 by lia.
  change (2 ^ 8) with 256. change (2 ^ 16) with 65536. change (2 ^ 24) with 16777216.
  rewrite (lor_disjoint_add (a * 16777216) (b * 65536) 24);
    [|lia|change (2 ^ 24) with 16777216; apply Z.mod_mul; lia|change (2 ^ 24) with 16777216; lia].
  rewrite (lor_disjoint_add _ (c * 256) 16);
    [|lia|change (2 ^ 16) with 65536; lia|change (2 ^ 16) with 65536; lia].
  rewrite (lor_disjoint_add _ d 8); [lia|lia|change (2 ^ 8) with 256; lia|exact Hd].
Qed.

Lemma store_byte v k : 0 <= k -> u8 (Z.land (Z.shiftr v k) 255) = v / 2 ^ k mod 256.
Proof. intros H. unfold u8. rewrite land_255, Z.shiftr_div_pow2 by lia. now rewrite Z.mod_mod. Qed.
Lemma store_byte0 v : u8 (Z.land v 255) = v mod 256.
Proof. unfold u8. rewrite land_255. now rewrite Z.mod_mod. Qed.

Lemma store16_eq v : store_uint16_be v = [v / 256 mod 256; v mod 256].
Proof. unfold store_uint16_be. rewrite !store_byte by lia. now rewrite store_byte0. Qed.
Lemma store24_eq v : store_uint24_be v = [v / 65536 mod 256; v / 256 mod 256; v mod 256].
Proof. unfold store_uint24_be. rewrite !store_byte by lia. now rewrite store_byte0. Qed.
Lemma store32_eq v : store_uint32_be v =
  [v / 16777216 mod 256; v / 65536 mod 256; v / 256 mod 256; v mod 256].
Proof. unfold store_uint32_be. rewrite !store_byte by lia. now rewrite store_byte0. Qed.

Lemma byte_mod v : is_byte (v mod 256).
Proof. unfold is_byte. lia. Qed.

Lemma be2 a b : be [a; b] = 256 * a + b.
Proof. unfold be, lenZ. cbn [length]. change (256 ^ Z.of_nat 1) with 256. change (256 ^ Z.of_nat 0) with 1. lia. Qed.
Lemma be3 a b c : be [a; b; c] = 65536 * a + 256 * b + c.
Proof.
  unfold be, lenZ. cbn [length]. change (256 ^ Z.of_nat 2) with 65536. change (256 ^ Z.of_nat 1) with 256.
  change (256 ^ Z.of_nat 0) with 1. lia.
Qed.
Lemma be4 a b c d : be [a; b; c; d] = 16777216 * a + 65536 * b + 256 * c + d.
Proof.
  unfold be, lenZ. cbn [length]. change (256 ^ Z.of_nat 3) with 16777216.
  change (256 ^ Z.of_nat 2) with 65536. change (256 ^ Z.of_nat 1) with 256.
  change (256 ^ Z.of_nat 0) with 1. lia.
Qed.

Lemma list_len3 (l : bytes) : lenZ l = 3 -> exists a b c, l = [a; b; c].
Proof. destruct l as [|a [|b [|c [|d l]]]]; unfold lenZ; cbn [length]; intros; try lia. eauto. Qed.
Lemma list_len4 (l : bytes) : lenZ l = 4 -> exists a b c d, l = [a; b; c; d].
Proof. destruct l as [|a [|b [|c [|d [|e l]]]]]; unfold lenZ; cbn [length]; intros; try lia. eauto. Qed.
Lemma list_len9 (l : bytes) : lenZ l = 9 -> exists a b c d e f g h i, l = [a; b; c; d; e; f; g; h; i].
Proof.
  destruct l as [|a [|b [|c [|d [|e [|f [|g [|h [|i [|j l]]]]]]]]]]; unfold lenZ; cbn [length]; intros; try lia.
  eauto 10.
Qed.

Lemma all_bytes_inv a l : all_bytes (a :: l) -> is_byte a /\ all_bytes l.
Proof. apply all_bytes_cons. Qed.

Ltac bytes_split :=
  repeat match goal with H : all_bytes (_ :: _) |- _ => apply all_bytes_inv in H as [? H] end.

(** C22 *)
Lemma fh_parse_spec len typ flags stream o :
  frame_header_octets len typ flags stream o -> fh_parse o = Ret (FH len typ flags stream).
Proof.
  intros (l & s & r & -> & Hb & Hl & El & Hs & Hr & Es & Hst).
  apply list_len3 in Hl as (a & b & c & ->). apply list_len4 in Hs as (d & e & f & g & ->).
  cbn [app] in *. bytes_split. cbn [fh_parse].
  rewrite be3 in El. rewrite be4 in Es. rewrite load24, load32, land_31 by auto. rewrite El, Es.
  change (2 ^ 31) with 2147483648 in *. f_equal. f_equal. lia.
Qed.

Lemma fh_parse_total o : lenZ o = 9 -> all_bytes o ->
  exists h, fh_parse o = Ret h /\
    frame_header_octets (fh_length h) (fh_type h) (fh_flags h) (fh_stream h) o.
Proof.
  intros Hl Hb. apply list_len9 in Hl as (a & b & c & d & e & f & g & h & i & ->).
  assert (F : exists st r, frame_header_octets (65536 * a + 256 * b + c) d e st [a; b; c; d; e; f; g; h; i] /\
    (r = 0 \/ r = 1)).
  { set (v := be [f; g; h; i]). exists (v mod 2 ^ 31), (v / 2 ^ 31).
    assert (0 <= v < 2 ^ 32).
    { subst v. rewrite be4. bytes_split. unfold is_byte in *. change (2 ^ 32) with 4294967296. lia. }
    change (2 ^ 31) with 2147483648 in *. change (2 ^ 32) with 4294967296 in *.
    assert (v / 2147483648 = 0 \/ v / 2147483648 = 1) by lia. split; auto.
    exists [a; b; c], [f; g; h; i], (v / 2147483648).
    split; [reflexivity|]. split; [exact Hb|]. split; [reflexivity|]. split; [apply be3|].
    split; [reflexivity|]. split; [auto|]. change (2 ^ 31) with 2147483648. fold v. split; lia. }
  destruct F as (st & r & F & _). pose proof (fh_parse_spec _ _ _ _ _ F) as E.
  eexists. split; [exact E|]. exact F.
Qed.

Lemma fh_serialize_spec len typ flags stream : is_byte typ -> is_byte flags ->
  frame_header_octets (len mod 2 ^ 24) typ flags (stream mod 2 ^ 31) (fh_serialize (FH len typ flags stream)).
Proof.
  intros Ht Hf. unfold fh_serialize. cbn [fh_length fh_type fh_flags fh_stream].
  rewrite land_31, store24_eq, store32_eq. change (2 ^ 24) with 16777216. change (2 ^ 31) with 2147483648.
  exists [len / 65536 mod 256; len / 256 mod 256; len mod 256].
  set (s := stream mod 2147483648).
  exists [s / 16777216 mod 256; s / 65536 mod 256; s / 256 mod 256; s mod 256], 0.
  split; [reflexivity|].
  split; [cbn [app]; repeat (apply Forall_cons; [first [assumption|apply byte_mod]|]); constructor|].
  split; [reflexivity|]. split; [rewrite be3; lia|]. split; [reflexivity|]. split; [auto|].
  change (2 ^ 31) with 2147483648. assert (0 <= s < 2147483648) by (subst s; lia).
  split; [rewrite be4; lia|lia].
Qed.

Lemma fh_round_trip len typ flags stream : is_byte typ -> is_byte flags ->
  fh_parse (fh_serialize (FH len typ flags stream)) = Ret (FH (len mod 2 ^ 24) typ flags (stream mod 2 ^ 31)).
Proof. intros Ht Hf. apply fh_parse_spec. now apply fh_serialize_spec. Qed.

Lemma fh_stable o h : lenZ o = 9 -> all_bytes o -> fh_parse o = Ret h ->
  fh_parse (fh_serialize h) = Ret h.
Proof.
  intros Hl Hb E. destruct (fh_parse_total o Hl Hb) as (h' & E' & F). rewrite E in E'. injection E' as <-.
  destruct F as (l & s & r & Eo & Hb' & Hl3 & El & Hs & Hr & Es & Hst).
  destruct h as [len typ flags stream]. cbn [fh_length fh_type fh_flags fh_stream] in *.
  apply list_len3 in Hl3 as (a & b & c & ->). rewrite be3 in El.
  apply list_len4 in Hs as (d & e & f & g & ->).
  rewrite Eo in Hb. cbn [app] in Hb. bytes_split. unfold is_byte in *.
  rewrite fh_round_trip by (unfold is_byte; auto). change (2 ^ 24) with 16777216 in *. change (2 ^ 31) with 2147483648 in *.
  rewrite !Z.mod_small by lia. reflexivity.
Qed.

(** C23 *)
Lemma load_store32 v : 0 <= v < 2 ^ 32 ->
  16777216 * (v / 16777216 mod 256) + 65536 * (v / 65536 mod 256) + 256 * (v / 256 mod 256) + v mod 256 = v.
Proof. change (2 ^ 32) with 4294967296. lia. Qed.

Lemma setting_round_trip s : 0 <= s_id s < 2 ^ 16 -> 0 <= s_value s < 2 ^ 32 ->
  setting_parse (setting_serialize s) = Ret s.
Proof.
  intros H1 H2. unfold setting_serialize. rewrite store16_eq, store32_eq. cbn [app setting_parse].
  rewrite load16, load32 by apply byte_mod. rewrite load_store32 by auto.
  change (2 ^ 16) with 65536 in *. destruct s as [i v]. cbn [s_id s_value] in *. f_equal. f_equal. lia.
Qed.

Lemma goaway_round_trip g : 0 <= ga_error g < 2 ^ 32 ->
  goaway_parse (goaway_serialize g) = Ret (GoAway (ga_last_stream g mod 2 ^ 31) (ga_error g)).
Proof.
  intros H2. unfold goaway_serialize. rewrite land_31, !store32_eq. cbn [app goaway_parse].
  rewrite !load32 by apply byte_mod. rewrite land_31. rewrite (load_store32 (ga_error g)) by auto.
  set (s := ga_last_stream g mod 2147483648). assert (0 <= s < 2147483648) by (subst s; lia).
  rewrite load_store32 by (change (2 ^ 32) with 4294967296; lia).
  rewrite Z.mod_small by lia. reflexivity.
Qed.

Lemma window_update_round_trip v : window_update_parse (window_update_serialize v) = Ret (v mod 2 ^ 31).
Proof.
  unfold window_update_serialize. rewrite land_31, store32_eq. cbn [window_update_parse].
  rewrite load32 by apply byte_mod. rewrite land_31.
  set (s := v mod 2147483648). assert (0 <= s < 2147483648) by (subst s; lia).
  rewrite load_store32 by (change (2 ^ 32) with 4294967296; lia). now rewrite Z.mod_small by lia.
Qed.

(** Parsing takes the big-endian value and drops the reserved bit. *)
Lemma window_update_value d : lenZ d = 4 -> all_bytes d -> window_update_parse d = Ret (be d mod 2 ^ 31).
Proof.
  intros Hl Hb. apply list_len4 in Hl as (a & b & c & e & ->). bytes_split. cbn [window_update_parse].
  rewrite load32, land_31, be4 by auto. reflexivity.
Qed.

Lemma setting_value i v : lenZ i = 2 -> lenZ v = 4 -> all_bytes i -> all_bytes v ->
  setting_parse (i ++ v) = Ret (Setting (be i) (be v)).
Proof.
  intros Hi Hv Bi Bv. apply list_len4 in Hv as (a & b & c & e & ->).
  destruct i as [|x [|y [|z i]]]; unfold lenZ in Hi; cbn [length] in Hi; try lia.
  bytes_split. cbn [app setting_parse]. now rewrite load16, load32, be2, be4 by auto.
Qed.

Lemma goaway_value s e : lenZ s = 4 -> lenZ e = 4 -> all_bytes s -> all_bytes e ->
  goaway_parse (s ++ e) = Ret (GoAway (be s mod 2 ^ 31) (be e)).
Proof.
  intros Hs He Bs Be. apply list_len4 in Hs as (a & b & c & d & ->). apply list_len4 in He as (i & j & k & l & ->).
  bytes_split. cbn [app goaway_parse]. now rewrite !load32, !be4, land_31 by auto.
Qed.

(** C24 *)
Lemma firstn_exact {A} n (a b : list A) : length a = n -> firstn n (a ++ b) = a.
Proof. intros <-. now rewrite firstn_app, Nat.sub_diag, firstn_all, firstn_O, app_nil_r. Qed.
Lemma skipn_exact {A} n (a b : list A) : length a = n -> skipn n (a ++ b) = b.
Proof. intros <-. now rewrite skipn_app, Nat.sub_diag, skipn_all. Qed.

Lemma read_entries_spec es : forall h,
  (forall e, In e es -> 0 <= s_id e < 2 ^ 16 /\ 0 <= s_value e < 2 ^ 32) ->
  read_entries (length es) (flat_map setting_serialize es ++ h) = Ret es.
Proof.
  induction es as [|e es IH]; intros h H; [reflexivity|].
  cbn [length read_entries flat_map]. rewrite <- app_assoc.
  assert (L : length (setting_serialize e) = 6%nat) by reflexivity.
  unfold subspan_first. rewrite app_length, L.
  replace (6 + _ <? 6)%nat with false by (symmetry; apply Nat.ltb_ge; lia). cbn [obind].
  rewrite firstn_exact, skipn_exact by exact L.
  rewrite setting_round_trip by (apply H; now left). cbn [obind].
  rewrite IH by (intros x Hx; apply H; now right). reflexivity.
Qed.

Lemma split6 (d : bytes) : (6 <= length d)%nat -> exists i v r : bytes, d = (i ++ v) ++ r /\ lenZ i = 2 /\ lenZ v = 4.
Proof.
  intros H. destruct d as [|a [|b [|c [|d [|e [|f r]]]]]]; cbn [length] in H; try lia.
  exists [a; b], [c; d; e; f], r. repeat split.
Qed.

Definition pair_of (s : setting) : Z * Z := (s_id s, s_value s).

Lemma read_entries_layout n : forall d, all_bytes d -> length d = (6 * n)%nat ->
  exists es, read_entries n d = Ret es /\ settings_payload d (map pair_of es) /\ length es = n.
Proof.
  induction n as [|n IH]; intros d Hb Hl.
  - destruct d; [|cbn in Hl; lia]. exists []. repeat split. constructor.
  - destruct (split6 d ltac:(lia)) as (i & v & r & -> & Hi & Hv).
    apply all_bytes_app in Hb as [Hb Hr]. apply all_bytes_app in Hb as [Bi Bv].
    assert (L : length (i ++ v) = 6%nat) by (rewrite app_length; unfold lenZ in *; lia).
    rewrite app_length, L in Hl. destruct (IH r Hr ltac:(lia)) as (es & E & Hlay & Hlen).
    cbn [read_entries]. unfold subspan_first. rewrite app_length, L.
    replace (6 + _ <? 6)%nat with false by (symmetry; apply Nat.ltb_ge; lia). cbn [obind].
    rewrite firstn_exact, skipn_exact by exact L.
    rewrite setting_value by auto. cbn [obind].
    rewrite E. cbn [obind].
    eexists. split; [reflexivity|]. split; [rewrite <- app_assoc; cbn [map pair_of s_id s_value]; now constructor|cbn; lia].
Qed.

Lemma read_settings_spec f : all_bytes (f_payload f) ->
  (lenZ (f_payload f) mod 6 = 0 /\ exists es, read_settings f = Ret (Val es) /\
     settings_payload (f_payload f) (map pair_of es) /\ 6 * lenZ es = lenZ (f_payload f)) \/
  (lenZ (f_payload f) mod 6 <> 0 /\ read_settings f = Ret (Error InvalidSettingsSize)).
Proof.
  intros Hb. unfold read_settings. destruct (lenZ (f_payload f) mod 6 =? 0) eqn:E; cbn [negb].
  - left. split; [lia|]. pose proof (lenZ_nonneg (f_payload f)).
    destruct (read_entries_layout (Z.to_nat (lenZ (f_payload f) / 6)) (f_payload f) Hb) as (es & -> & Hl & Hn).
    { unfold lenZ in *. lia. }
    exists es. cbn [obind]. repeat split; auto. unfold lenZ in *. lia.
  - right. split; [lia|reflexivity].
Qed.

(** C25 *)
Lemma headers_block_defined f : headers_block f <> Undef <->
  (has_flag f 32 = true -> 5 <= lenZ (f_payload f)).
Proof.
  unfold headers_block, subspan_from, lenZ. destruct (has_flag f 32); [|split; easy].
  destruct (length (f_payload f) <? 5)%nat eqn:E.
  - apply Nat.ltb_lt in E. split; [easy|]. intros H. specialize (H eq_refl). lia.
  - apply Nat.ltb_ge in E. split; [lia|easy].
Qed.

Lemma read_window_update_defined f : read_window_update f <> Undef <-> 4 <= lenZ (f_payload f).
Proof.
  unfold read_window_update, subspan_first, lenZ. destruct (length (f_payload f) <? 4)%nat eqn:E.
  - apply Nat.ltb_lt in E. cbn. split; [easy|lia].
  - apply Nat.ltb_ge in E. cbn [obind]. split; [lia|]. intros _.
    destruct (f_payload f) as [|a [|b [|c [|d r]]]]; cbn [length] in E; try lia. easy.
Qed.

Lemma read_goaway_defined f : read_goaway f <> Undef <-> 8 <= lenZ (f_payload f).
Proof.
  unfold read_goaway, subspan_first, lenZ. destruct (length (f_payload f) <? 8)%nat eqn:E.
  - apply Nat.ltb_lt in E. cbn. split; [easy|lia].
  - apply Nat.ltb_ge in E. cbn [obind]. split; [lia|]. intros _.
    destruct (f_payload f) as [|a [|b [|c [|d [|e [|g [|h [|i r]]]]]]]]; cbn [length] in E; try lia. easy.
Qed.

Lemma read_settings_defined f : all_bytes (f_payload f) -> read_settings f <> Undef.
Proof. intros H. destruct (read_settings_spec f H) as [(_ & es & -> & _)|(_ & ->)]; easy. Qed.

(** C26 *)
Lemma headers_block_unpadded f fragment :
  headers_payload false (has_flag f 32) fragment (f_payload f) -> headers_block f = Ret fragment.
Proof.
  intros (prio & padding & E & Hp & _ & Hn). rewrite (Hn eq_refl), app_nil_r in E. cbn [app] in E.
  unfold headers_block. destruct (has_flag f 32).
  - unfold subspan_from. rewrite E, app_length. unfold lenZ in Hp.
    replace (length prio) with 5%nat by lia.
    replace (5 + _ <? 5)%nat with false by (symmetry; apply Nat.ltb_ge; lia).
    now rewrite skipn_exact by lia.
  - rewrite E. destruct prio; [reflexivity|]. unfold lenZ in Hp. cbn in Hp. lia.
Qed.

(** With padding the block is always wrong: it starts with the pad length octet. *)
Lemma headers_block_padded_wrong f fragment :
  headers_payload true (has_flag f 32) fragment (f_payload f) -> headers_block f <> Ret fragment.
Proof.
  intros (prio & padding & E & Hp & _ & _) H.
  unfold headers_block, subspan_from in H.
  assert (L : length (f_payload f) = (1 + length prio + length fragment + length padding)%nat).
  { rewrite E, !app_length. cbn [length]. lia. }
  destruct (has_flag f 32).
  - destruct (_ <? _)%nat eqn:E5; [easy|].
    assert (H' : skipn 5 (f_payload f) = fragment) by congruence. clear H. rename H' into H.
    apply (f_equal (@length Z)) in H. rewrite skipn_length, L in H. unfold lenZ in Hp. lia.
  - injection H as H. apply (f_equal (@length Z)) in H. rewrite L in H. lia.
Qed.
