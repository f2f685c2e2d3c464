From Verif Require Import Base BaseLemmas SpecHuffman HuffmanTable Huffman.

(** ** Bits *)
Lemma testbit_land v i : 0 <= i -> (Z.land (Z.shiftr v i) 1 =? 1) = Z.testbit v i.
Proof.
  intros Hi.
  rewrite (land_ones_mod _ 1) by lia. rewrite Z.shiftr_div_pow2 by lia.
  pose proof (Z.testbit_spec' v i Hi) as E. change (2 ^ 1) with 2.
  destruct (Z.testbit v i); cbn [Z.b2z] in E; rewrite <- E; reflexivity.
Qed.

Lemma octet_reader_bits_eq b : octet_reader_bits b = msb_bits 8 b.
Proof.
  unfold octet_reader_bits. cbn [map]. rewrite !testbit_land by lia. reflexivity.
Qed.

Lemma bit_reader_eq data : bit_reader data = payload_bits data.
Proof.
  unfold bit_reader, payload_bits. induction data as [|b d IH]; [reflexivity|].
  cbn [flat_map]. now rewrite octet_reader_bits_eq, IH.
Qed.

Lemma payload_bits_app a b : payload_bits (a ++ b) = payload_bits a ++ payload_bits b.
Proof. apply flat_map_app. Qed.
Lemma huff_bits_app a b : huff_bits (a ++ b) = huff_bits a ++ huff_bits b.
Proof. apply flat_map_app. Qed.

Lemma payload_bits_length p : length (payload_bits p) = (8 * length p)%nat.
Proof.
  unfold payload_bits. induction p as [|b p IH]; [reflexivity|].
  cbn [flat_map]. rewrite app_length, IH. cbn [msb_bits length]. lia.
Qed.

(** ** The writer *)
Definition bw_rep (bw : bit_writer) (bits : list bool) : Prop :=
  all_bytes (bw_buffer bw) /\ 0 <= bw_bits bw < 8 /\ is_byte (bw_current bw) /\
  bw_current bw mod 2 ^ (8 - bw_bits bw) = 0 /\
  bits = payload_bits (bw_buffer bw) ++
         firstn (Z.to_nat (bw_bits bw)) (msb_bits 8 (bw_current bw)).

Lemma bw_init_rep : bw_rep bw_init [].
Proof. repeat split; cbn; try lia. constructor. Qed.

Definition bools_eqb := fix f (a b : list bool) :=
  match a, b with
  | [], [] => true
  | x :: a', y :: b' => eqb x y && f a' b'
  | _, _ => false
  end.
Lemma bools_eqb_eq a b : bools_eqb a b = true <-> a = b.
Proof.
  split.
  - revert b. induction a as [|x a IH]; intros [|y b]; cbn; try easy.
    intros H. apply andb_prop in H as [H1 H2]. apply eqb_prop in H1. f_equal; auto.
  - intros ->. induction b as [|x b IH]; [easy|]. cbn. now rewrite eqb_reflx.
Qed.

Definition write_check (n c : Z) (bit : bool) : bool :=
  if c mod 2 ^ (8 - n) =? 0 then
    let c' := if bit then u8 (Z.lor c (Z.shiftl 1 (7 - n))) else c in
    (0 <=? c') && (c' <? 256) && (c' mod 2 ^ (8 - (n + 1)) =? 0) &&
    bools_eqb (firstn (Z.to_nat (n + 1)) (msb_bits 8 c'))
              (firstn (Z.to_nat n) (msb_bits 8 c) ++ [bit])
  else true.

Lemma write_check_all n c bit : 0 <= n < 8 -> is_byte c -> write_check n c bit = true.
Proof.
  intros Hn Hc.
  apply (octet_sweep (fun c => forallb (fun n => write_check n c true && write_check n c false)
     [0; 1; 2; 3; 4; 5; 6; 7])) in Hc; [|vm_compute; reflexivity].
  rewrite forallb_forall in Hc. assert (Hin : In n [0; 1; 2; 3; 4; 5; 6; 7]).
  { cbn. lia. }
  apply Hc in Hin. apply andb_prop in Hin as [A B]. now destruct bit.
Qed.

Lemma write_bit_rep bw bits bit : bw_rep bw bits -> bw_rep (write_bit bw bit) (bits ++ [bit]).
Proof.
  intros (Hb & Hn & Hc & Hm & ->).
  pose proof (write_check_all _ _ bit Hn Hc) as W. unfold write_check in W.
  rewrite Hm in W. cbn [Z.eqb] in W.
  unfold write_bit. set (c' := if bit then _ else _) in *.
  apply andb_prop in W as [W W4]. apply andb_prop in W as [W W3].
  apply andb_prop in W as [W1 W2]. apply bools_eqb_eq in W4.
  replace (u8 (bw_bits bw + 1)) with (bw_bits bw + 1) by (unfold u8; lia).
  destruct (bw_bits bw + 1 =? 8) eqn:E8; unfold bw_rep; cbn [bw_buffer bw_current bw_bits].
  - repeat split; try lia.
    + apply all_bytes_app. split; [auto|]. repeat constructor; lia.
    + rewrite payload_bits_app, <- !app_assoc. f_equal.
      change (Z.to_nat 0) with 0%nat. cbn [firstn]. rewrite app_nil_r.
      rewrite <- W4. replace (Z.to_nat (bw_bits bw + 1)) with 8%nat by lia.
      cbn [payload_bits flat_map]. unfold payload_bits. cbn [flat_map].
      rewrite app_nil_r. reflexivity.
  - repeat split; try lia; auto.
    rewrite <- app_assoc. f_equal. now rewrite W4.
Qed.

Lemma write_bits_loop_rep k v : forall bw bits, bw_rep bw bits ->
  bw_rep (write_bits_loop k v bw) (bits ++ msb_bits k v).
Proof.
  induction k as [|k IH]; intros bw bits H; cbn [write_bits_loop msb_bits].
  - now rewrite app_nil_r.
  - rewrite testbit_land by lia.
    replace (bits ++ Z.testbit v (Z.of_nat k) :: msb_bits k v)
      with ((bits ++ [Z.testbit v (Z.of_nat k)]) ++ msb_bits k v) by now rewrite <- app_assoc.
    apply IH, write_bit_rep, H.
Qed.

Lemma iter_write_rep k : forall bw bits, bw_rep bw bits ->
  bw_rep (Nat.iter k (fun w => write_bit w true) bw) (bits ++ repeat true k).
Proof.
  induction k as [|k IH]; intros bw bits H.
  - cbn. now rewrite app_nil_r.
  - cbn [Nat.iter nat_rect].
    replace (repeat true (S k)) with (repeat true k ++ [true]).
    + rewrite app_assoc. apply write_bit_rep. now apply IH.
    + change [true] with (repeat true 1). rewrite <- repeat_app. f_equal. lia.
Qed.

Lemma write_bit_bits bw b : 0 <= bw_bits bw < 8 ->
  bw_bits (write_bit bw b) = (bw_bits bw + 1) mod 8.
Proof.
  intros H. unfold write_bit. replace (u8 (bw_bits bw + 1)) with (bw_bits bw + 1) by (unfold u8; lia).
  destruct (_ =? 8) eqn:E; cbn [bw_bits]; lia.
Qed.

Lemma iter_write_bits k : forall bw, 0 <= bw_bits bw < 8 ->
  bw_bits (Nat.iter k (fun w => write_bit w true) bw) = (bw_bits bw + Z.of_nat k) mod 8.
Proof.
  induction k as [|k IH]; intros bw H.
  - cbn [Nat.iter nat_rect]. lia.
  - cbn [Nat.iter nat_rect]. rewrite write_bit_bits.
    + unfold Nat.iter in IH. rewrite IH by auto. lia.
    + unfold Nat.iter in IH. rewrite IH by auto. lia.
Qed.

Lemma finalize_rep bw bits : bw_rep bw bits ->
  all_bytes (bw_finalize bw) /\
  exists k, (k < 8)%nat /\ payload_bits (bw_finalize bw) = bits ++ repeat true k.
Proof.
  intros H. unfold bw_finalize. destruct (bw_bits bw >? 0) eqn:E.
  - set (k := Z.to_nat (8 - bw_bits bw)).
    pose proof (iter_write_rep k _ _ H) as (Hb & _ & _ & _ & Hx).
    pose proof H as (_ & Hn & _).
    rewrite iter_write_bits in Hx by auto.
    replace ((bw_bits bw + Z.of_nat k) mod 8) with 0 in Hx by (subst k; lia).
    change (Z.to_nat 0) with 0%nat in Hx. cbn [firstn] in Hx. rewrite app_nil_r in Hx.
    split; [auto|]. exists k. split; [subst k; lia|auto].
  - destruct H as (Hb & Hn & _ & _ & ->). split; [auto|]. exists 0%nat. split; [lia|].
    replace (bw_bits bw) with 0 by lia. cbn [Z.to_nat firstn repeat]. now rewrite !app_nil_r.
Qed.

(** ** The table *)
Definition table_check (c : Z) : bool :=
  match nth_error HUFFMAN_CODES (Z.to_nat c) with
  | Some (code, len) =>
      (code =? code_value c) && (len =? code_len c) && (5 <=? len) && (len <=? 30)
  | None => false
  end.

Lemma table_check_all c : is_byte c -> table_check c = true.
Proof. apply octet_sweep. vm_compute. reflexivity. Qed.

Lemma table_canonical c : is_byte c ->
  nth_error HUFFMAN_CODES (Z.to_nat c) = Some (code_value c, code_len c).
Proof.
  intros H. apply table_check_all in H. unfold table_check in H.
  destruct (nth_error _ _) as [[code len]|]; [|easy].
  repeat apply andb_prop in H as [H ?]. f_equal. f_equal; lia.
Qed.

Lemma code_len_bounds c : is_byte c -> 5 <= code_len c <= 30.
Proof.
  intros H. pose proof (table_canonical c H) as T. apply table_check_all in H.
  unfold table_check in H. rewrite T in H. lia.
Qed.

Lemma msb_bits_length n v : length (msb_bits n v) = n.
Proof. induction n; cbn; auto. Qed.

Lemma code_bits_length c : is_byte c -> (5 <= length (code_bits c) <= 30)%nat.
Proof.
  intros H. unfold code_bits. rewrite msb_bits_length. pose proof (code_len_bounds c H). lia.
Qed.

Lemma code_of_char cs c : is_byte c -> (cs = true -> c < 128) ->
  huffman_code_of_char cs c = Ret (code_value c, code_len c).
Proof.
  intros Hc Hs. unfold huffman_code_of_char.
  replace (if cs && (c >=? 128) then u64 (c - 256) else c) with c.
  - rewrite (table_canonical c Hc).
    replace (c <? lenZ HUFFMAN_CODES) with true; [reflexivity|].
    change (lenZ HUFFMAN_CODES) with 256. unfold is_byte in Hc. lia.
  - destruct cs; [|reflexivity]. specialize (Hs eq_refl). cbn [andb].
    replace (c >=? 128) with false by lia. reflexivity.
Qed.

Definition ascii_if_signed (cs : bool) (s : bytes) : Prop :=
  cs = true -> Forall (fun c => c < 128) s.

Lemma huffman_write_rep cs s : all_bytes s -> ascii_if_signed cs s ->
  forall bw bits, bw_rep bw bits ->
  exists bw', huffman_write cs s bw = Ret bw' /\ bw_rep bw' (bits ++ huff_bits s).
Proof.
  induction s as [|c s IH]; intros Hs Ha bw bits H; cbn [huffman_write].
  - exists bw. split; [reflexivity|]. cbn. now rewrite app_nil_r.
  - apply all_bytes_cons in Hs as [Hc Hs].
    rewrite code_of_char; auto.
    + cbn [obind]. unfold huff_bits. cbn [flat_map]. rewrite app_assoc.
      apply IH; auto.
      * intros E. specialize (Ha E). now inversion Ha.
      * unfold write_bits. now apply write_bits_loop_rep.
    + intros E. specialize (Ha E). now inversion Ha.
Qed.

Lemma huffman_encode_spec cs s : all_bytes s -> ascii_if_signed cs s ->
  exists p, huffman_encode cs s = Ret p /\ all_bytes p /\
    exists k, (k < 8)%nat /\ payload_bits p = huff_bits s ++ repeat true k.
Proof.
  intros Hs Ha. destruct (huffman_write_rep cs s Hs Ha _ _ bw_init_rep) as (bw & E & H).
  unfold huffman_encode. rewrite E. cbn [obind]. eexists. split; [reflexivity|].
  now apply finalize_rep.
Qed.

Lemma repeat_true_all_ones k : all_ones (repeat true k).
Proof. unfold all_ones. apply Forall_forall. intros x H. now apply repeat_spec in H. Qed.

Lemma all_ones_repeat l : all_ones l -> l = repeat true (length l).
Proof. induction 1; cbn; [easy|]. subst. now f_equal. Qed.

Lemma all_ones_forallb l : forallb (fun b => b) l = true <-> all_ones l.
Proof. unfold all_ones. rewrite forallb_forall, Forall_forall. reflexivity. Qed.

Lemma huffman_encode_strict cs s : all_bytes s -> ascii_if_signed cs s ->
  exists p, huffman_encode cs s = Ret p /\ all_bytes p /\ huff_strict p s.
Proof.
  intros Hs Ha. destruct (huffman_encode_spec cs s Hs Ha) as (p & E & Hp & k & Hk & Hb).
  exists p. repeat split; auto. exists (repeat true k). rewrite repeat_length.
  repeat split; auto. apply repeat_true_all_ones.
Qed.

(** The codes as read from the source table; equal to the specified ones, and cheap
    to compute with. *)
Definition tbl_bits (c : Z) : list bool :=
  match nth_error HUFFMAN_CODES (Z.to_nat c) with
  | Some (code, len) => msb_bits (Z.to_nat len) code
  | None => []
  end.
Lemma tbl_bits_eq c : is_byte c -> tbl_bits c = code_bits c.
Proof. intros H. unfold tbl_bits. now rewrite table_canonical. Qed.

(** ** The tree *)
Definition the_tree : tree :=
  Eval vm_compute in match huffman_tree with Ret t => t | _ => Null end.
Lemma huffman_tree_eq : huffman_tree = Ret the_tree.
Proof. vm_compute. reflexivity. Qed.

(** Follow [bits] through inner nodes only. *)
Fixpoint walk (t : tree) (bits : list bool) {struct bits} : option tree :=
  match bits with
  | [] => Some t
  | b :: bs => match t with
               | Node l r None => walk (if b then r else l) bs
               | _ => None
               end
  end.

Lemma walk_app t a b : walk t (a ++ b) = match walk t a with Some t' => walk t' b | None => None end.
Proof.
  revert t. induction a as [|x a IH]; intros t; [reflexivity|].
  cbn [app walk]. destruct t as [|l r [s|]]; auto.
Qed.

(** Every leaf sits at the code of its symbol; the only missing child is at EOS. *)
Fixpoint tree_ok (t : tree) (rpath : list bool) : bool :=
  match t with
  | Null => bools_eqb (rev rpath) EOS
  | Node Null Null (Some s) =>
      (0 <=? s) && (s <? 256) && bools_eqb (rev rpath) (tbl_bits s)
  | Node _ _ (Some _) => false
  | Node l r None => tree_ok l (false :: rpath) && tree_ok r (true :: rpath)
  end.

Lemma the_tree_ok : tree_ok the_tree [] = true.
Proof. vm_compute. reflexivity. Qed.

Definition is_leaf (t : option tree) (s : Z) : bool :=
  match t with Some (Node Null Null (Some s')) => s' =? s | _ => false end.

Lemma walk_code c : is_byte c -> walk the_tree (code_bits c) = Some (Node Null Null (Some c)).
Proof.
  intros H.
  assert (L : is_leaf (walk the_tree (tbl_bits c)) c = true).
  { apply (octet_sweep (fun c => is_leaf (walk the_tree (tbl_bits c)) c)); [|exact H].
    vm_compute. reflexivity. }
  rewrite tbl_bits_eq in L by auto.
  unfold is_leaf in L.
  destruct (walk the_tree (code_bits c)) as [[|l r [s|]]|]; try easy;
    destruct l; try easy; destruct r; try easy.
  apply Z.eqb_eq in L. now subst.
Qed.

Lemma walk_EOS : walk the_tree EOS = Some Null.
Proof. vm_compute. reflexivity. Qed.

Lemma root_inner : exists l r, the_tree = Node l r None.
Proof. unfold the_tree. do 2 eexists. reflexivity. Qed.

(** What is reached by walking [bits] from a correct subtree. *)
Lemma tree_ok_walk : forall t rpath, tree_ok t rpath = true ->
  (exists l r, t = Node l r None) ->
  forall bits,
    (exists l r, walk t bits = Some (Node l r None)) \/
    (exists p rest c, bits = p ++ rest /\ is_byte c /\ rev rpath ++ p = code_bits c) \/
    (exists p rest, bits = p ++ rest /\ rev rpath ++ p = EOS).
Proof.
  intros t rpath Hok Hin bits. revert t rpath Hok Hin.
  induction bits as [|b bits IH]; intros t rpath Hok (l & r & ->).
  - left. cbn. eauto.
  - cbn [tree_ok] in Hok. assert (Hlr : tree_ok l (false :: rpath) = true /\ tree_ok r (true :: rpath) = true).
    { destruct l, r; cbn in Hok |- *; now apply andb_prop in Hok. }
    set (t' := if b then r else l).
    assert (Hok' : tree_ok t' (b :: rpath) = true) by (destruct b; tauto).
    cbn [walk]. fold t'.
    assert (Hshift : forall q, rev rpath ++ b :: q = rev (b :: rpath) ++ q)
      by (intros q; cbn [rev]; now rewrite <- app_assoc).
    destruct t' as [|l' r' [s|]] eqn:Et.
    + right. right. exists [b], bits. split; [easy|].
      rewrite Hshift, app_nil_r. cbn [tree_ok] in Hok'. now apply bools_eqb_eq in Hok'.
    + right. left. exists [b], bits, s. split; [easy|].
      rewrite Hshift, app_nil_r. cbn [tree_ok] in Hok'.
      destruct l'; try easy. destruct r'; try easy.
      apply andb_prop in Hok' as [H1 H2]. apply bools_eqb_eq in H2.
      assert (Hs : is_byte s) by (unfold is_byte; lia).
      rewrite tbl_bits_eq in H2 by auto. auto.
    + destruct (IH _ _ Hok' ltac:(eauto)) as [H|[(p & rest & c & -> & Hc & Hp)|(p & rest & -> & Hp)]].
      * left. exact H.
      * right. left. exists (b :: p), rest, c. rewrite Hshift. auto.
      * right. right. exists (b :: p), rest. rewrite Hshift. auto.
Qed.

(** Every bit string starts with a symbol, or with EOS, or is a proper inner path. *)
Lemma bits_cases bits :
  (exists l r, walk the_tree bits = Some (Node l r None)) \/
  (exists rest c, is_byte c /\ bits = code_bits c ++ rest) \/
  (exists rest, bits = EOS ++ rest).
Proof.
  destruct (tree_ok_walk the_tree [] the_tree_ok root_inner bits)
    as [H|[(p & rest & c & -> & Hc & Hp)|(p & rest & -> & Hp)]]; [auto| |]; cbn [rev app] in Hp; subst p; eauto 6.
Qed.

Lemma inner_no_symbol bits l r : walk the_tree bits = Some (Node l r None) -> no_symbol bits.
Proof.
  intros H c rest Hc ->. rewrite walk_app, walk_code in H by auto.
  destruct rest; cbn in H; congruence.
Qed.

Lemma inner_no_EOS bits l r rest : walk the_tree bits = Some (Node l r None) -> bits <> EOS ++ rest.
Proof.
  intros H ->. rewrite walk_app, walk_EOS in H. destruct rest; cbn in H; congruence.
Qed.

Lemma EOS_no_symbol rest : no_symbol (EOS ++ rest).
Proof.
  intros c r Hc E.
  assert (H : exists x, code_bits c ++ x = EOS \/ code_bits c = EOS ++ x).
  { clear Hc. revert E. generalize (code_bits c) as a, EOS as e.
    induction a as [|x a IH]; intros e E; [exists e; now left|].
    destruct e as [|y e]; [exists (x :: a); now right|].
    cbn in E. injection E as -> E. destruct (IH _ E) as (z & [<-| ->]); exists z; [now left|now right]. }
  destruct H as (x & [H|H]).
  - pose proof walk_EOS as W. rewrite <- H, walk_app, walk_code in W by auto.
    destruct x; cbn in W; congruence.
  - pose proof (walk_code c Hc) as W. rewrite H, walk_app, walk_EOS in W.
    destruct x; cbn in W; congruence.
Qed.

Lemma codes_prefix_free c d x y : is_byte c -> is_byte d ->
  code_bits c ++ x = code_bits d ++ y -> c = d /\ x = y.
Proof.
  intros Hc Hd E.
  assert (H : exists z, code_bits c ++ z = code_bits d \/ code_bits c = code_bits d ++ z).
  { revert E. generalize (code_bits c) as a, (code_bits d) as e.
    induction a as [|u a IH]; intros e E; [exists e; now left|].
    destruct e as [|v e]; [exists (u :: a); now right|].
    cbn in E. injection E as -> E. destruct (IH _ E) as (z & [<-| ->]); exists z; [now left|now right]. }
  assert (c = d) as ->.
  { destruct H as (z & [H|H]).
    - pose proof (walk_code d Hd) as W. rewrite <- H, walk_app, walk_code in W by auto.
      destruct z; cbn in W; congruence.
    - pose proof (walk_code c Hc) as W. rewrite H, walk_app, walk_code in W by auto.
      destruct z; cbn in W; congruence. }
  split; [easy|]. now apply app_inv_head in E.
Qed.

(** ** Decoding *)
Lemma loop_walk_leaf root bits : forall cur s rest acc, bits <> [] ->
  walk cur bits = Some (Node Null Null (Some s)) ->
  huffman_loop root cur (bits ++ rest) acc = huffman_loop root root rest (s :: acc).
Proof.
  induction bits as [|b bits IH]; intros cur s rest acc Hne H; [easy|].
  cbn [walk] in H. destruct cur as [|l r [x|]]; try easy.
  cbn [app huffman_loop]. destruct bits as [|b' bits].
  - cbn in H. injection H as H. destruct b; rewrite H; reflexivity.
  - destruct (if b then r else l) as [|l' r' [x|]] eqn:E; try easy.
    rewrite <- (IH (Node l' r' None) s rest acc); auto. easy.
Qed.

Lemma loop_walk_null root bits : forall cur rest acc, bits <> [] ->
  walk cur bits = Some Null ->
  huffman_loop root cur (bits ++ rest) acc =
  if forallb (fun b => b) rest then Ret (Val (rev acc)) else Ret (Error InvalidCode).
Proof.
  induction bits as [|b bits IH]; intros cur rest acc Hne H; [easy|].
  cbn [walk] in H. destruct cur as [|l r [x|]]; try easy.
  cbn [app huffman_loop]. destruct bits as [|b' bits].
  - cbn in H. injection H as H. destruct b; rewrite H; reflexivity.
  - destruct (if b then r else l) as [|l' r' [x|]] eqn:E; try easy.
    rewrite <- (IH (Node l' r' None) rest acc); auto. easy.
Qed.

Lemma loop_walk_inner root bits : forall cur l r acc,
  walk cur bits = Some (Node l r None) ->
  huffman_loop root cur bits acc = Ret (Val (rev acc)).
Proof.
  induction bits as [|b bits IH]; intros cur l r acc H; [reflexivity|].
  cbn [walk] in H. destruct cur as [|l0 r0 [x|]]; try easy.
  cbn [huffman_loop].
  destruct (if b then r0 else l0) as [|l' r' [x|]] eqn:E; cycle 2.
  - eapply IH; eauto.
  - destruct bits; easy.
  - destruct bits; easy.
Qed.

Lemma loop_codes s : all_bytes s -> forall rest acc,
  huffman_loop the_tree the_tree (huff_bits s ++ rest) acc =
  huffman_loop the_tree the_tree rest (rev s ++ acc).
Proof.
  induction s as [|c s IH]; intros Hs rest acc; [reflexivity|].
  apply all_bytes_cons in Hs as [Hc Hs].
  unfold huff_bits. cbn [flat_map]. rewrite <- app_assoc.
  rewrite loop_walk_leaf with (s := c).
  - fold (huff_bits s). rewrite IH by auto. cbn [rev]. now rewrite <- app_assoc.
  - pose proof (code_bits_length c Hc). intros E. rewrite E in H. cbn in H. lia.
  - now apply walk_code.
Qed.

(** Every bit string splits into symbols and a tail without a symbol. *)
Lemma bits_split bits : exists s tail,
  all_bytes s /\ bits = huff_bits s ++ tail /\
  ((exists l r, walk the_tree tail = Some (Node l r None)) \/ exists rest, tail = EOS ++ rest).
Proof.
  remember (length bits) as n eqn:En. revert bits En.
  induction n as [n IH] using (well_founded_induction Wf_nat.lt_wf). intros bits ->.
  destruct (bits_cases bits) as [H|[(rest & c & Hc & ->)|(rest & ->)]].
  - exists [], bits. repeat split; auto. constructor.
  - pose proof (code_bits_length c Hc). destruct (IH (length rest)) with (bits := rest) as (s & tail & Hs & -> & H'); auto.
    { rewrite app_length. lia. }
    exists (c :: s), tail. repeat split; auto.
    + apply all_bytes_cons; auto.
    + unfold huff_bits at 2. cbn [flat_map]. now rewrite <- app_assoc.
  - exists [], (EOS ++ rest). repeat split; eauto. constructor.
Qed.

Lemma tail_no_symbol tail :
  (exists l r, walk the_tree tail = Some (Node l r None)) \/ (exists rest, tail = EOS ++ rest) ->
  no_symbol tail.
Proof.
  intros [(l & r & H)|(rest & ->)]; [eauto using inner_no_symbol|apply EOS_no_symbol].
Qed.

Lemma split_unique s : all_bytes s -> forall s' t t', all_bytes s' ->
  no_symbol t -> no_symbol t' -> huff_bits s ++ t = huff_bits s' ++ t' -> s = s' /\ t = t'.
Proof.
  induction s as [|c s IH]; intros Hs [|c' s'] t t' Hs' N N' E.
  - auto.
  - apply all_bytes_cons in Hs' as [Hc _]. exfalso. cbn in E.
    apply (N c' (huff_bits s' ++ t') Hc). rewrite E. unfold huff_bits. now rewrite <- app_assoc.
  - apply all_bytes_cons in Hs as [Hc _]. exfalso. cbn in E.
    apply (N' c (huff_bits s ++ t) Hc). rewrite <- E. unfold huff_bits. now rewrite <- app_assoc.
  - apply all_bytes_cons in Hs as [Hc Hs]. apply all_bytes_cons in Hs' as [Hc' Hs'].
    unfold huff_bits in E. cbn [flat_map] in E. rewrite <- !app_assoc in E.
    apply codes_prefix_free in E as [-> E]; auto.
    destruct (IH Hs s' t t') as [-> ->]; auto.
Qed.

Definition decode_result (s : bytes) (tail : list bool) : out (expected huffman_error bytes) :=
  if forallb (fun b => b) (skipn 30 tail) then Ret (Val s) else Ret (Error InvalidCode).

Lemma app_EOS_skipn rest : skipn 30 (EOS ++ rest) = rest.
Proof. reflexivity. Qed.

(** Inner paths have fewer than 30 bits. *)
Fixpoint inner_depth (t : tree) : nat :=
  match t with
  | Node l r None => S (Nat.max (inner_depth l) (inner_depth r))
  | _ => 0
  end.
Lemma inner_depth_walk bits : forall t l r, walk t bits = Some (Node l r None) ->
  (length bits < inner_depth t)%nat.
Proof.
  induction bits as [|b bits IH]; intros t l r H.
  - cbn in H. injection H as ->. cbn. lia.
  - cbn [walk] in H. destruct t as [|l0 r0 [x|]]; try easy.
    apply IH in H. cbn [length inner_depth]. destruct b; lia.
Qed.
Lemma inner_short bits l r : walk the_tree bits = Some (Node l r None) -> (length bits < 30)%nat.
Proof.
  intros H. apply inner_depth_walk in H.
  replace (inner_depth the_tree) with 30%nat in H by (vm_compute; reflexivity). exact H.
Qed.

Lemma huffman_decode_split p : exists s tail,
  all_bytes s /\ payload_bits p = huff_bits s ++ tail /\ no_symbol tail /\
  ((length tail < 30)%nat \/ exists rest, tail = EOS ++ rest) /\
  huffman_decode the_tree p = decode_result s tail.
Proof.
  unfold huffman_decode. rewrite bit_reader_eq.
  destruct (bits_split (payload_bits p)) as (s & tail & Hs & E & H).
  exists s, tail. repeat split; auto.
  - now apply tail_no_symbol.
  - destruct H as [(l & r & H)|H]; [left; eauto using inner_short|now right].
  - rewrite E, loop_codes, app_nil_r by auto. unfold decode_result.
    destruct H as [(l & r & H)|(rest & ->)].
    + rewrite (loop_walk_inner _ _ _ _ _ _ H), rev_involutive.
      apply inner_short in H. rewrite skipn_all2 by lia. reflexivity.
    + rewrite loop_walk_null; [|easy|apply walk_EOS].
      rewrite rev_involutive, app_EOS_skipn. reflexivity.
Qed.

Lemma huffman_decode_val p s :
  huffman_decode the_tree p = Ret (Val s) <-> all_bytes s /\ huff_lenient p s.
Proof.
  destruct (huffman_decode_split p) as (s' & tail & Hs' & E & N & L & D).
  split.
  - rewrite D. unfold decode_result. destruct (forallb _ _) eqn:F; [|easy].
    intros [= <-]. split; [auto|]. exists tail. repeat split; auto.
    intros rest ->. rewrite app_EOS_skipn in F. now apply all_ones_forallb.
  - intros (Hs & t & E2 & N2 & Heos). rewrite E in E2.
    apply split_unique in E2 as [-> ->]; auto. rewrite D. unfold decode_result.
    destruct L as [L|(rest & ->)].
    + rewrite skipn_all2 by lia. reflexivity.
    + rewrite app_EOS_skipn. specialize (Heos _ eq_refl).
      apply all_ones_forallb in Heos. now rewrite Heos.
Qed.

Lemma huffman_decode_error p :
  huffman_decode the_tree p = Ret (Error InvalidCode) <->
  exists s rest, all_bytes s /\ payload_bits p = huff_bits s ++ EOS ++ rest /\ ~ all_ones rest.
Proof.
  destruct (huffman_decode_split p) as (s' & tail & Hs' & E & N & L & D).
  split.
  - rewrite D. unfold decode_result. destruct (forallb _ _) eqn:F; [easy|]. intros _.
    destruct L as [L|(rest & ->)].
    + rewrite skipn_all2 in F by lia. easy.
    + exists s', rest. repeat split; auto. rewrite app_EOS_skipn in F.
      intros A. apply all_ones_forallb in A. congruence.
  - intros (s & rest & Hs & E2 & Hno). rewrite E in E2.
    apply split_unique in E2 as [-> ->]; auto using EOS_no_symbol.
    rewrite D. unfold decode_result. rewrite app_EOS_skipn.
    destruct (forallb _ _) eqn:F; [|reflexivity]. apply all_ones_forallb in F. easy.
Qed.

Lemma huffman_decode_total p :
  (exists s, huffman_decode the_tree p = Ret (Val s)) \/
  huffman_decode the_tree p = Ret (Error InvalidCode).
Proof.
  destruct (huffman_decode_split p) as (s' & tail & _ & _ & _ & _ & ->).
  unfold decode_result. destruct (forallb _ _); eauto.
Qed.

Lemma code_not_ones c : is_byte c -> ~ all_ones (code_bits c).
Proof.
  intros H A. apply all_ones_forallb in A.
  assert (negb (forallb (fun b => b) (tbl_bits c)) = true).
  { apply (octet_sweep (fun c => negb (forallb (fun b => b) (tbl_bits c)))); [|exact H].
    vm_compute. reflexivity. }
  rewrite tbl_bits_eq in H0 by auto.
  now rewrite A in H0.
Qed.

Lemma ones_no_symbol l : all_ones l -> no_symbol l.
Proof.
  intros A c rest Hc ->. apply Forall_app in A as [A _]. eapply code_not_ones; eauto.
Qed.

Lemma strict_lenient p s : huff_strict p s -> huff_lenient p s.
Proof.
  intros (pad & E & L & A). exists pad. repeat split; auto using ones_no_symbol.
  intros rest ->. unfold all_ones in A. now apply Forall_app in A.
Qed.

Lemma huffman_decode_strict p s : all_bytes s -> huff_strict p s ->
  huffman_decode the_tree p = Ret (Val s).
Proof. intros. apply huffman_decode_val. auto using strict_lenient. Qed.

Lemma huffman_round_trip cs s : all_bytes s -> ascii_if_signed cs s ->
  exists p, huffman_encode cs s = Ret p /\ huffman_decode the_tree p = Ret (Val s).
Proof.
  intros Hs Ha. destruct (huffman_encode_strict cs s Hs Ha) as (p & E & _ & H).
  exists p. split; auto. now apply huffman_decode_strict.
Qed.

Lemma huff_bits_len s : all_bytes s -> (5 * length s <= length (huff_bits s))%nat.
Proof.
  induction s as [|c s IH]; intros H; [cbn; lia|]. apply all_bytes_cons in H as [Hc Hs].
  unfold huff_bits. cbn [flat_map length]. rewrite app_length. specialize (IH Hs).
  unfold huff_bits in IH. pose proof (code_bits_length c Hc). lia.
Qed.

Lemma huffman_decode_bound p s : huffman_decode the_tree p = Ret (Val s) ->
  5 * lenZ s <= 8 * lenZ p.
Proof.
  intros H. apply huffman_decode_val in H as (Hs & t & E & _).
  apply (f_equal (@length bool)) in E. rewrite app_length, payload_bits_length in E.
  pose proof (huff_bits_len s Hs). unfold lenZ. lia.
Qed.

Definition total_code_bits (s : bytes) : Z := fold_right Z.add 0 (map code_len s).

Lemma huff_bits_total s : all_bytes s -> lenZ (huff_bits s) = total_code_bits s.
Proof.
  induction s as [|c s IH]; intros H; [reflexivity|]. apply all_bytes_cons in H as [Hc Hs].
  unfold huff_bits. cbn [flat_map]. rewrite lenZ_app. unfold huff_bits in IH. rewrite IH by auto.
  unfold total_code_bits. cbn [map fold_right]. f_equal. unfold lenZ, code_bits.
  rewrite msb_bits_length. pose proof (code_len_bounds c Hc). lia.
Qed.

Lemma huffman_encode_size cs s p : all_bytes s -> ascii_if_signed cs s ->
  huffman_encode cs s = Ret p -> lenZ p = (total_code_bits s + 7) / 8.
Proof.
  intros Hs Ha E. destruct (huffman_encode_spec cs s Hs Ha) as (p' & E' & _ & k & Hk & Hb).
  rewrite E in E'. injection E' as <-.
  apply (f_equal lenZ) in Hb. rewrite lenZ_app, huff_bits_total in Hb by auto.
  unfold lenZ in Hb. rewrite payload_bits_length, repeat_length in Hb. unfold lenZ. lia.
Qed.

(** Undefined behaviour of the encoder where char is signed. *)
Lemma huffman_write_undef s : Exists (fun c => 128 <= c) s -> all_bytes s ->
  forall bw, huffman_write true s bw = Undef.
Proof.
  induction s as [|c s IH]; intros H Hs bw; [inversion H|].
  apply all_bytes_cons in Hs as [Hc Hs]. cbn [huffman_write].
  destruct (Z.lt_ge_cases c 128).
  - rewrite code_of_char by (auto; lia). cbn [obind]. apply IH; auto.
    inversion H; subst; [lia|auto].
  - unfold huffman_code_of_char. cbn [andb]. replace (c >=? 128) with true by lia.
    unfold is_byte in Hc. replace (u64 (c - 256) <? lenZ HUFFMAN_CODES) with false; [reflexivity|].
    change (lenZ HUFFMAN_CODES) with 256. unfold u64. lia.
Qed.
Lemma huffman_encode_undef s : Exists (fun c => 128 <= c) s -> all_bytes s ->
  huffman_encode true s = Undef.
Proof. intros. unfold huffman_encode. now rewrite huffman_write_undef. Qed.

(** ** Versions for the property file: any tree the code builds. *)
Lemma tree_unique t : huffman_tree = Ret t -> t = the_tree.
Proof. rewrite huffman_tree_eq. congruence. Qed.

Lemma codes_complete bits : (30 <= length bits)%nat ->
  (exists c rest, is_byte c /\ bits = code_bits c ++ rest) \/ (exists rest, bits = EOS ++ rest).
Proof.
  intros H. destruct (bits_cases bits) as [(l & r & W)|[(rest & c & Hc & E)|E]]; eauto.
  apply inner_short in W. lia.
Qed.

Lemma round_trip_t t cs s : huffman_tree = Ret t ->
  all_bytes s -> (cs = true -> Forall (fun c => c < 128) s) ->
  exists p, huffman_encode cs s = Ret p /\ huffman_decode t p = Ret (Val s).
Proof. intros ->%tree_unique. apply huffman_round_trip. Qed.

Lemma decode_sound_t t p : huffman_tree = Ret t ->
  match huffman_decode t p with
  | Ret (Val s) => all_bytes s /\ exists tail, payload_bits p = huff_bits s ++ tail /\
      no_symbol tail /\
      ((length tail < 30)%nat \/ exists rest, tail = EOS ++ rest /\ all_ones rest)
  | Ret (Error InvalidCode) => exists s rest, all_bytes s /\
      payload_bits p = huff_bits s ++ EOS ++ rest /\ ~ all_ones rest
  | _ => False
  end.
Proof.
  intros ->%tree_unique.
  destruct (huffman_decode_split p) as (s & tail & Hs & E & N & L & D). rewrite D.
  unfold decode_result. destruct (forallb _ _) eqn:F.
  - split; [auto|]. exists tail. repeat split; auto.
    destruct L as [L|(rest & ->)]; [now left|right]. exists rest.
    rewrite app_EOS_skipn in F. split; [easy|]. now apply all_ones_forallb.
  - destruct L as [L|(rest & ->)]; [rewrite skipn_all2 in F by lia; easy|].
    exists s, rest. rewrite app_EOS_skipn in F. repeat split; auto.
    intros A. apply all_ones_forallb in A. congruence.
Qed.

Lemma decode_iff_t t p s : huffman_tree = Ret t ->
  (huffman_decode t p = Ret (Val s) <-> all_bytes s /\ huff_lenient p s).
Proof. intros ->%tree_unique. apply huffman_decode_val. Qed.

Lemma decode_bound_t t p s : huffman_tree = Ret t ->
  huffman_decode t p = Ret (Val s) -> 5 * lenZ s <= 8 * lenZ p.
Proof. intros ->%tree_unique. apply huffman_decode_bound. Qed.

Lemma decode_strict_t t p s : huffman_tree = Ret t -> all_bytes s -> huff_strict p s ->
  huffman_decode t p = Ret (Val s).
Proof. intros ->%tree_unique. apply huffman_decode_strict. Qed.

(** The decoder accepts the single octet 0 as the string made of the character 0:
    its three padding bits are zeros. *)
Lemma zero_padding_accepted t : huffman_tree = Ret t ->
  huffman_decode t [0] = Ret (Val (str "0")) /\ forall s, all_bytes s -> ~ huff_strict [0] s.
Proof.
  intros ->%tree_unique. split; [vm_compute; reflexivity|].
  intros s Hs H. pose proof H as (pad & E & L & A). pose proof (huffman_decode_strict _ _ Hs H) as D.
  assert (D0 : huffman_decode the_tree [0] = Ret (Val (str "0"))) by (vm_compute; reflexivity).
  rewrite D0 in D. injection D as <-.
  assert (P : payload_bits [0] = huff_bits (str "0") ++ repeat false 3) by (vm_compute; reflexivity).
  rewrite P in E. apply app_inv_head in E. subst pad. inversion A. discriminate.
Qed.

(** The decoder accepts eight ones (a whole octet of padding) and thirty-two ones
    (an encoded EOS) as the empty string. *)
Lemma long_padding_accepted t : huffman_tree = Ret t ->
  huffman_decode t [255] = Ret (Val []) /\ huffman_decode t [255; 255; 255; 255] = Ret (Val []) /\
  ~ huff_strict [255] [] /\ ~ huff_strict [255; 255; 255; 255] [].
Proof.
  intros ->%tree_unique. split; [vm_compute; reflexivity|]. split; [vm_compute; reflexivity|].
  split; intros (pad & E & L & _); apply (f_equal (@length bool)) in E;
    rewrite payload_bits_length in E; cbn in E; lia.
Qed.
