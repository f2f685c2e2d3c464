(** C106: HuffmanTree with codes other than HPACK's. *)
From Verif Require Import Base BaseLemmas Huffman SpecHuffman HuffmanProofs SpecTree TreeProofs.

(** The trees that insertions lead to.  An insertion that throws leaves the tree as it is. *)
Inductive built : codes -> tree -> Prop :=
| built_new : built [] (Node Null Null None)
| built_more : forall L t s code len t', built L t -> 0 <= s < 256 -> 0 <= len < 256 ->
    insert_symbol t s code len = Ret t' -> built (L ++ [(msb_bits (Z.to_nat len) code, s)]) t'.
Lemma built_holds L t : built L t -> holds L t.
Proof.
  induction 1 as [|L t s code len t' H IH Hs Hl E]; [exact holds_empty|]. pose proof (holds_insert L t s code len IH Hl) as K. rewrite E in K.
  destruct K as (_ & _ & K). replace (u8 s) with s in K by (unfold u8; symmetry; apply Z.mod_small; lia). exact K.
Qed.

(** ** C106.  A code can be inserted unless its length is not 1 to 31 or it is there already ... *)
Theorem C106_insert : forall L t s code len, built L t -> 0 <= s < 256 -> 0 <= len < 256 ->
  (1 <= len <= 31 -> ~ In (msb_bits (Z.to_nat len) code) (map fst L) -> exists t', insert_symbol t s code len = Ret t') /\
  (len = 0 \/ 31 < len \/ In (msb_bits (Z.to_nat len) code) (map fst L) -> insert_symbol t s code len = Throw).
Proof.
  intros L t s code len H Hs Hl. pose proof (holds_insert L t s code len (built_holds _ _ H) Hl) as K.
  destruct (insert_symbol t s code len) as [t'| | |]; [|split; [|reflexivity]|easy..].
  - destruct K as (K1 & K2 & _). split; [eauto|]. intros [->|[G|G]]; [lia..|]. apply in_map_iff in G as ([c s'] & E & Hin). cbn [fst] in E. subst c. now destruct (K2 s').
  - intros K1 K2. exfalso. destruct K as [->|[K|(s' & Hin)]]; [lia..|]. apply K2, in_map_iff. now exists (msb_bits (Z.to_nat len) code, s').
Qed.
Print Assumptions C106_insert.

(** ... and then decoding reads code after code, the shortest that matches first; what is left
    is ignored, or an error if a zero follows the first bit that leads to no code. *)
Theorem C106_decode : forall L t p, built L t ->
  (exists out tail, reads L (payload_bits p) out tail) /\
  forall out tail, reads L (payload_bits p) out tail ->
    (ignorable L tail -> huffman_decode t p = Ret (Val out)) /\
    (~ ignorable L tail -> huffman_decode t p = Ret (Error InvalidCode)).
Proof.
  intros L t p H. pose proof (built_holds _ _ H) as K. split; [exact (decode_reads L t K p)|]. intros out tail. exact (decode_any L t K p out tail).
Qed.
Print Assumptions C106_decode.

(** With codes of which none starts another, the text that was written is read. *)
Theorem C106_text : forall L t p ks tail, built L t ->
  (forall c s c' s', In (c, s) L -> In (c', s') L -> starts c c' -> (c, s) = (c', s')) ->
  incl ks L -> payload_bits p = concat (map fst ks) ++ tail ->
  (exists c s, In (c, s) L /\ starts tail c /\ tail <> c) ->
  huffman_decode t p = Ret (Val (map snd ks)).
Proof.
  intros L t p ks tail H Hf Hk Hp (c & s & Hin & Hs & Hne). pose proof (built_holds _ _ H) as K.
  assert (N : forall c' s', In (c', s') L -> ~ starts c' tail).
  { intros c' s' Hin' Hs'. pose proof (Hf c' s' c s Hin' Hin (starts_trans _ _ _ Hs' Hs)) as [= -> ->].
    destruct Hs as (y & Ey). destruct Hs' as (y' & Ey'). rewrite Ey' in Ey. rewrite <- app_assoc in Ey.
    destruct y' as [|b y']; [rewrite app_nil_r in Ey'; contradiction|]. apply (f_equal (@length bool)) in Ey. rewrite !app_length in Ey. cbn in Ey. lia. }
  apply (proj2 (C106_decode L t p H) (map snd ks) tail).
  - rewrite Hp. clear Hp. induction ks as [|[c' s'] ks IH]; [now apply reads_end|]. cbn [map concat fst snd]. rewrite <- app_assoc.
    assert (Hin' : In (c', s') L) by (apply Hk; now left). apply reads_code; [exact Hin'| |apply IH; intros x Hx; apply Hk; now right].
    intros c1 s1 Hin1 Hs1. destruct (starts_two c' c1 (c' ++ concat (map fst ks) ++ tail)) as [T|T]; [now eexists|exact Hs1|now apply starts_length|].
    pose proof (Hf _ _ _ _ Hin1 Hin' T) as [= -> _]. lia.
  - intros rest Hr. exfalso. apply (live_no_stray L t K tail rest); [|exact Hr]. intros E. apply (proj2 (proj1 (ho_null _ _ K tail) E) c s Hin Hs).
Qed.
Print Assumptions C106_text.

(** Three codes: 0, 10, 11.  The text abcab takes eight bits; a fourth code, 1, is refused by
    nobody, though every code that starts with it is lost. *)
Definition three : codes := [([false], 97); ([true; false], 98); ([true; true], 99)].
Example C106_case : exists t t', built three t /\ huffman_decode t [90] = Ret (Val (str "abcab")) /\
  (forall c s c' s', In (c, s) three -> In (c', s') three -> starts c c' -> (c, s) = (c', s')) /\
  payload_bits [90] = concat (map fst [([false], 97); ([true; false], 98); ([true; true], 99); ([false], 97); ([true; false], 98)]) ++ [] /\
  insert_symbol t 100 2 2 = Throw /\ insert_symbol t 100 1 1 = Ret t' /\ huffman_decode t' [90] = Ret (Val (str "adaddada")).
Proof.
  exists (Node (Node Null Null (Some 97)) (Node (Node Null Null (Some 98)) (Node Null Null (Some 99)) None) None). eexists.
  split; [|split; [reflexivity|]].
  - change three with ((([] ++ [(msb_bits 1 0, 97)]) ++ [(msb_bits 2 2, 98)]) ++ [(msb_bits 2 3, 99)]).
    eapply (built_more _ _ 99 3 2); [eapply (built_more _ _ 98 2 2); [eapply (built_more _ _ 97 0 1); [constructor|lia|lia|reflexivity]|lia|lia|reflexivity]|lia|lia|reflexivity].
  - split; [|repeat split; vm_compute; reflexivity]. unfold three. cbn [In]. intros c s c' s' H1 H2 (y & E).
    repeat (destruct H1 as [[= <- <-]|H1]); try destruct H1; repeat (destruct H2 as [[= <- <-]|H2]); try destruct H2; try reflexivity; discriminate E.
Qed.
