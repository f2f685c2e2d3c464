(** What a decoding tree should make of the codes that were inserted. *)
From Verif Require Import Base SpecHuffman.

(** Codes (most significant bit first) with their symbols. *)
Definition codes := list (list bool * Z).
Definition starts (x c : list bool) : Prop := exists y, c = x ++ y.

(** Reading: the shortest code that matches comes next; [tail] is what is left when none does. *)
Inductive reads (L : codes) : list bool -> bytes -> list bool -> Prop :=
| reads_end : forall tail, (forall c s, In (c, s) L -> ~ starts c tail) -> reads L tail [] tail
| reads_code : forall c s rest out tail, In (c, s) L ->
    (forall c' s', In (c', s') L -> starts c' (c ++ rest) -> (length c <= length c')%nat) ->
    reads L rest out tail -> reads L (c ++ rest) (s :: out) tail.

(** The first bit with which [tail] can no longer become a code, and what follows it. *)
Definition stray (L : codes) (tail rest : list bool) : Prop :=
  exists x b, tail = x ++ b :: rest /\ (x = [] \/ exists c s, In (c, s) L /\ starts x c) /\
    forall c s, In (c, s) L -> ~ starts (x ++ [b]) c.
(** What is left is ignored if it is the start of a code, or if only ones follow the stray bit. *)
Definition ignorable (L : codes) (tail : list bool) : Prop := forall rest, stray L tail rest -> all_ones rest.
