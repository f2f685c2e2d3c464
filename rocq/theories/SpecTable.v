(** RFC 7541, section 4: size and eviction of the dynamic table. Independent of the
    model. A table is a list of header fields, newest first. *)
From Verif Require Import Base.

(** 4.1: length of name plus length of value plus 32. *)
Definition entry_size (h : header) : Z := lenZ (h_name h) + lenZ (h_value h) + 32.
Definition table_size (l : list header) : Z := fold_right Z.add 0 (map entry_size l).

(** [kept] is the longest newest-first run of [l] that fits into [max]. *)
Definition longest_fitting (max : Z) (l kept : list header) : Prop :=
  (exists evicted, l = kept ++ evicted) /\ table_size kept <= max /\
  (forall k e, l = k ++ e -> table_size k <= max -> (length k <= length kept)%nat).

(** The same as a function. *)
Fixpoint fit (max : Z) (l : list header) : list header :=
  match l with
  | [] => []
  | h :: t => if entry_size h <=? max then h :: fit (max - entry_size h) t else []
  end.
