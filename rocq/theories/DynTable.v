(** Model of lib/hpack/dynamic_table.{h,cpp}. *)
From Verif Require Import Base.

Definition HARD_TABLE_SIZE_LIMIT : Z := 65536.   (* dynamic_table.h:11 *)
Definition DEFAULT_MAX_TABLE_SIZE : Z := 65536.  (* dynamic_table.h:12 *)

(** class DynamicTable, dynamic_table.h:14-32.  The front of the deque is the head
    of the list. *)
Record dyn_table := DT { dt_table : list header; dt_size : Z; dt_max : Z }.

(** Constructor, dynamic_table.cpp:9. *)
Definition dt_init (max_table_size : Z) : dyn_table := DT [] 0 max_table_size.

(** DynamicTable::count, dynamic_table.cpp:11-13. *)
Definition dt_count (t : dyn_table) : Z := lenZ (dt_table t).

(** DynamicTable::get, dynamic_table.cpp:15-17: unchecked. *)
Definition dt_get (t : dyn_table) (index : Z) : out header :=
  if (0 <=? index) && (index <? dt_count t)
  then match nth_error (dt_table t) (Z.to_nat index) with Some h => Ret h | None => Undef end
  else Undef.

(** DynamicTable::get_header_entry_size, dynamic_table.cpp:79-81 (size_t). *)
Definition get_header_entry_size (h : header) : Z :=
  u64 (u64 (lenZ (h_name h) + lenZ (h_value h)) + 32).

(** The eviction loops, dynamic_table.cpp:29-32 ([extra] is the new entry's size)
    and 72-76 ([extra] is 0).  The table is given back to front; back() and
    pop_back() of an empty deque are undefined. *)
Fixpoint evict (extra max : Z) (back_first : list header) (size : Z) : out (list header * Z) :=
  if u64 (size + extra) >? max then
    match back_first with
    | [] => Undef
    | h :: rest => evict extra max rest (u64 (size - get_header_entry_size h))
    end
  else Ret (back_first, size).

(** DynamicTable::insert, dynamic_table.cpp:19-37. *)
Definition dt_insert (t : dyn_table) (h : header) : out dyn_table :=
  let entry_size := get_header_entry_size h in
  if entry_size >? dt_max t then Ret (DT [] 0 (dt_max t))
  else
    let! (kept, size) := evict entry_size (dt_max t) (rev (dt_table t)) (dt_size t) in
    Ret (DT (h :: rev kept) (u64 (size + entry_size)) (dt_max t)).

(** std::find_if + std::distance. *)
Fixpoint find_index (p : header -> bool) (l : list header) : option Z :=
  match l with
  | [] => None
  | h :: t => if p h then Some 0
              else match find_index p t with Some i => Some (i + 1) | None => None end
  end.

(** DynamicTable::find, dynamic_table.cpp:39-47. *)
Definition dt_find (t : dyn_table) (h : header) : option Z :=
  find_index (fun x => bytes_eqb (h_name h) (h_name x) && bytes_eqb (h_value h) (h_value x))
    (dt_table t).

(** DynamicTable::find_name, dynamic_table.cpp:49-56. *)
Definition dt_find_name (t : dyn_table) (name : bytes) : option Z :=
  find_index (fun x => bytes_eqb name (h_name x)) (dt_table t).

(** DynamicTable::set_max_table_size, dynamic_table.cpp:70-77. *)
Definition dt_set_max (t : dyn_table) (new_sz : Z) : out dyn_table :=
  let! (kept, size) := evict 0 new_sz (rev (dt_table t)) (dt_size t) in
  Ret (DT (rev kept) size new_sz).
