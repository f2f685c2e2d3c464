(** When a handler obtained from the router can still be called. *)
From Verif Require Import Base Http FileSys Files Router RouterLife.

Section Spec.
  Variable W : Type.
  Notation op := (op W).

  (** String [i] has the value [v] after [xs]. *)
  Definition concerns (i : nat) (x : op) : Prop :=
    match x with MakeString _ j _ | AssignString _ j _ | DropString _ j => j = i | _ => False end.
  Definition has_value (xs : list op) (i : nat) (v : bytes) : Prop :=
    exists a b, (xs = a ++ MakeString W i v :: b \/ xs = a ++ AssignString W i v :: b) /\ forall x, In x b -> ~ concerns i x.
  (** What was registered, and how many handlers were obtained. *)
  Definition registered (xs : list op) : list (registration W) :=
    flat_map (fun x => match x with NewRoute _ p m h => [AddRoute p m h] | NewStatic _ s => [AddStatic s] | _ => [] end) xs.
  Definition statics (xs : list op) : nat := length (filter (fun x => match x with NewStatic _ _ => true | _ => false end) xs).
  Definition obtained (xs : list op) : nat := length (filter (fun x => match x with Obtain _ _ _ => true | _ => false end) xs).
  (** Adding [m] static handlers to [n] leaves them where they are: arrays have 0, 1, 2,
      4, 8, ... elements, as few as will do. *)
  Definition stays (n m : nat) : Prop := (m = 0 \/ n <> 0 /\ n + m <= 2 ^ Nat.log2_up n)%nat.
End Spec.
