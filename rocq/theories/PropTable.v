(** Properties C09-C11: the HPACK dynamic table. Statements only; proofs are in
    DynTableProofs.v.  A history is a list of insertions and size changes applied to
    a fresh table; [op_ok] only bounds the numbers so that they fit a size_t. *)
From Verif Require Import Base BaseLemmas SpecTable DynTable DynTableProofs.

(** C09 *)
Theorem C09_accounting : forall m os, 0 <= m < 2 ^ 63 -> Forall op_ok os ->
  exists t, run_ops (dt_init m) os = Ret t /\
    dt_size t = table_size (dt_table t) /\ dt_size t <= dt_max t.
Proof. exact run_ops_accounting. Qed.
Print Assumptions C09_accounting.

Definition ex_h (n v : string) := Hdr (str n) (str v).
Example C09_example :
  let os := [OpInsert (ex_h "a" "1"); OpInsert (ex_h "b" "2"); OpInsert (ex_h "c" "3");
             OpResize 40; OpInsert (ex_h "d" "4")] in
  Forall op_ok os /\
  run_ops (dt_init 70) os = Ret (DT [ex_h "d" "4"] 34 40) /\
  run_ops (dt_init 70) (firstn 3 os) = Ret (DT [ex_h "c" "3"; ex_h "b" "2"] 68 70).
Proof. cbn zeta. repeat split. repeat constructor; unfold header_sane; cbn; lia. Qed.

(** C10 *)
Theorem C10_insert_evicts_oldest : forall m os t h, 0 <= m < 2 ^ 63 -> Forall op_ok os ->
  run_ops (dt_init m) os = Ret t -> header_sane h ->
  exists t', dt_insert t h = Ret t' /\ dt_max t' = dt_max t /\
    longest_fitting (dt_max t) (h :: dt_table t) (dt_table t').
Proof. exact insert_longest. Qed.
Print Assumptions C10_insert_evicts_oldest.

Theorem C10_resize_evicts_oldest : forall m os t n, 0 <= m < 2 ^ 63 -> Forall op_ok os ->
  run_ops (dt_init m) os = Ret t -> 0 <= n < 2 ^ 63 ->
  exists t', dt_set_max t n = Ret t' /\ dt_max t' = n /\
    longest_fitting n (dt_table t) (dt_table t').
Proof. exact resize_longest. Qed.
Print Assumptions C10_resize_evicts_oldest.

(** There is only one such table. *)
Theorem C10_longest_fitting_unique : forall max l k,
  longest_fitting max l k -> 0 <= max -> k = fit max l.
Proof. exact longest_fitting_unique. Qed.
Print Assumptions C10_longest_fitting_unique.

Example C10_example :
  dt_insert (DT [ex_h "a" "1"; ex_h "b" "2"] 68 70) (ex_h "cc" "33") =
    Ret (DT [ex_h "cc" "33"; ex_h "a" "1"] 70 70) /\
  dt_insert (DT [ex_h "a" "1"; ex_h "b" "2"] 68 70) (Hdr (repeat 65 39) []) = Ret (DT [] 0 70).
Proof. split; reflexivity. Qed.

(** C11 *)
Theorem C11_find : forall t h,
  match dt_find t h with
  | Some i => 0 <= i /\ nth_error (dt_table t) (Z.to_nat i) = Some h /\
      forall j, (j < Z.to_nat i)%nat -> nth_error (dt_table t) j <> Some h
  | None => ~ In h (dt_table t)
  end.
Proof. exact dt_find_spec. Qed.
Print Assumptions C11_find.

Theorem C11_find_name : forall t n,
  match dt_find_name t n with
  | Some i => 0 <= i /\ (exists h, nth_error (dt_table t) (Z.to_nat i) = Some h /\ h_name h = n) /\
      forall j h, (j < Z.to_nat i)%nat -> nth_error (dt_table t) j = Some h -> h_name h <> n
  | None => forall h, In h (dt_table t) -> h_name h <> n
  end.
Proof. exact dt_find_name_spec. Qed.
Print Assumptions C11_find_name.

Theorem C11_get : forall t i, 0 <= i < dt_count t ->
  exists h, dt_get t i = Ret h /\ nth_error (dt_table t) (Z.to_nat i) = Some h.
Proof. exact dt_get_spec. Qed.
Print Assumptions C11_get.

Example C11_example :
  let t := DT [ex_h "a" "1"; ex_h "b" "2"; ex_h "a" "3"; ex_h "b" "2"] 136 200 in
  dt_find t (ex_h "b" "2") = Some 1 /\ dt_find_name t (str "a") = Some 0 /\
  dt_find t (ex_h "a" "2") = None /\ dt_find_name t (str "c") = None.
Proof. repeat split. Qed.
