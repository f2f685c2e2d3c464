(** General lemmas about the vocabulary of [Base]. *)
From Coq Require Export ZifyBool ZifyNat.
From Verif Require Export Base.
Ltac Zify.zify_post_hook ::= Z.div_mod_to_equations.

Lemma bytes_eqb_refl a : bytes_eqb a a = true.
Proof. induction a as [|x a IH]; cbn; [easy|]. now rewrite Z.eqb_refl. Qed.

Lemma bytes_eqb_eq a b : bytes_eqb a b = true <-> a = b.
Proof.
  split.
  - revert b. induction a as [|x a IH]; intros [|y b]; cbn; try easy.
    intros H. apply andb_prop in H as [H1 H2].
    apply Z.eqb_eq in H1. now rewrite H1, (IH _ H2).
  - intros ->. apply bytes_eqb_refl.
Qed.

Lemma bytes_eqb_neq a b : bytes_eqb a b = false <-> a <> b.
Proof.
  rewrite <- bytes_eqb_eq. destruct (bytes_eqb a b); split; congruence.
Qed.

Lemma header_eqb_eq a b : header_eqb a b = true <-> a = b.
Proof.
  unfold header_eqb. rewrite andb_true_iff, !bytes_eqb_eq.
  destruct a, b; cbn. split; [intros [-> ->]; easy | now intros [= -> ->]].
Qed.

Lemma lenZ_nil {A} : lenZ (@nil A) = 0.
Proof. reflexivity. Qed.
Lemma lenZ_cons {A} (x : A) l : lenZ (x :: l) = 1 + lenZ l.
Proof. unfold lenZ. cbn [length]. lia. Qed.
Lemma lenZ_app {A} (a b : list A) : lenZ (a ++ b) = lenZ a + lenZ b.
Proof. unfold lenZ. rewrite app_length. lia. Qed.
Lemma lenZ_nonneg {A} (l : list A) : 0 <= lenZ l.
Proof. unfold lenZ. lia. Qed.
Lemma lenZ_0 {A} (l : list A) : lenZ l = 0 -> l = [].
Proof. destruct l; [easy|]. rewrite lenZ_cons. pose proof (lenZ_nonneg l). lia. Qed.

Lemma all_bytes_app a b : all_bytes (a ++ b) <-> all_bytes a /\ all_bytes b.
Proof. unfold all_bytes. apply Forall_app. Qed.

Lemma all_bytes_cons x b : all_bytes (x :: b) <-> is_byte x /\ all_bytes b.
Proof. unfold all_bytes. rewrite Forall_cons_iff. easy. Qed.

Lemma str_all_bytes s : all_bytes (str s).
Proof.
  unfold str, all_bytes. apply Forall_map, Forall_forall. intros c _.
  unfold is_byte. pose proof (N_ascii_bounded c). lia.
Qed.

(** Statements about octets can be proved by checking the 256 values. *)
Definition all_octets : list Z := map Z.of_nat (seq 0 256).

Lemma in_all_octets b : is_byte b -> In b all_octets.
Proof.
  unfold is_byte, all_octets. intros H. apply in_map_iff.
  exists (Z.to_nat b). split; [lia|]. apply in_seq. lia.
Qed.

Lemma octet_sweep (P : Z -> bool) :
  forallb P all_octets = true -> forall b, is_byte b -> P b = true.
Proof.
  intros H b Hb. rewrite forallb_forall in H. apply H, in_all_octets, Hb.
Qed.

(** Masks of the form 2^k-1 and powers of two. *)
Lemma land_ones_mod x k : 0 <= k -> Z.land x (2 ^ k - 1) = x mod 2 ^ k.
Proof.
  intros Hk. replace (2 ^ k - 1) with (Z.ones k) by (rewrite Z.ones_equiv; lia).
  now apply Z.land_ones.
Qed.

Lemma land_127 b : Z.land b 127 = b mod 128.
Proof. apply (land_ones_mod b 7). lia. Qed.
Lemma land_255 b : Z.land b 255 = b mod 256.
Proof. apply (land_ones_mod b 8). lia. Qed.

Lemma lor_disjoint_add a b k :
  0 <= k -> a mod 2 ^ k = 0 -> 0 <= b < 2 ^ k -> Z.lor a b = a + b.
Proof.
  intros Hk Ha Hb. rewrite Z.add_nocarry_lxor, Z.lxor_lor; auto.
  all: apply Z.bits_inj'; intros n Hn; rewrite Z.land_spec, Z.bits_0;
    destruct (Z.lt_ge_cases n k) as [Hlt|Hge].
  1,3: rewrite <- (Z.mod_pow2_bits_low a k n) by lia; now rewrite Ha, Z.bits_0.
  all: assert (E : Z.testbit b n = false) by
      (destruct (Z.eq_dec b 0) as [->|Hn0]; [apply Z.bits_0|];
       apply Z.bits_above_log2; [lia|]; 
       assert (Z.log2 b < k) by (apply Z.log2_lt_pow2; lia); lia);
    rewrite E; apply andb_false_r.
Qed.

Lemma land_128_zero b : is_byte b -> (Z.land b 128 =? 0) = (b <? 128).
Proof.
  intros Hb. apply eqb_prop.
  apply (octet_sweep (fun b => eqb (Z.land b 128 =? 0) (b <? 128))); [|exact Hb].
  vm_compute. reflexivity.
Qed.

Lemma pow2_pos k : 0 <= k -> 0 < 2 ^ k.
Proof. intros. apply Z.pow_pos_nonneg; lia. Qed.

(** List odds and ends. *)
Lemma app_inj_len {A} (a a' b b' : list A) :
  length a = length a' -> a ++ b = a' ++ b' -> a = a' /\ b = b'.
Proof.
  revert a'. induction a as [|x a IH]; intros [|y a']; cbn; try easy.
  intros L [= -> E]. destruct (IH a') as [-> ->]; auto.
Qed.

Definition all_bytesb (l : bytes) : bool := forallb (fun b => (0 <=? b) && (b <? 256)) l.
Lemma all_bytesb_ok l : all_bytesb l = true -> all_bytes l.
Proof.
  unfold all_bytesb. intros H. apply Forall_forall. intros b Hb.
  rewrite forallb_forall in H. specialize (H b Hb). unfold is_byte. lia.
Qed.
Lemma all_blocksb_ok ls : forallb all_bytesb ls = true -> Forall all_bytes ls.
Proof.
  intros H. apply Forall_forall. intros b Hb. rewrite forallb_forall in H. auto using all_bytesb_ok.
Qed.
