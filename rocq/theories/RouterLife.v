(** Model of what the handlers returned by Router::get_handler (router.cpp:11-36) refer to:
    the lambda for static files holds references to the caller's method string and to an
    element of the router's vector of static handlers.

    Simplified: no middleware (a middleware only puts the caller's code around a handler);
    an object that is gone leaves its number unused.  A vector that is full moves its
    elements to an array of twice the size, as in libstdc++ and libc++. *)
From Verif Require Import Base Http FileSys Files Router.

Section Life.
  Variable W : Type.
  Variable files : W -> os.

  (** A handler held by the caller: a copy of a route's or of the default handler (router.cpp:12-21), or the lambda (27-29) with its path and its references: a string, and
      element [index] of array [array]. *)
  Inductive closure :=
  | Copied (h : handler W)
  | Lambda (path : bytes) (method : nat) (array index : nat).
  (** The caller's strings (number, contents), the router (router.h:31-34) with the number
      of the array its vector uses and the size of that, the handlers handed out. *)
  Record life := Life { l_strings : list (nat * bytes); l_used : list nat; l_router : router W;
                        l_array : nat; l_room : nat; l_handlers : list closure }.
  (** A new router, router.cpp:7-9, and no strings. *)
  Definition new_life : life := Life [] [] (new_router W) 0 0 [].

  (** A reference to a string is followed. *)
  Fixpoint string_at (i : nat) (l : list (nat * bytes)) : option bytes :=
    match l with
    | [] => None
    | (j, s) :: l' => if Nat.eqb i j then Some s else string_at i l'
    end.
  (** A string is destroyed. *)
  Definition drop_string (i : nat) (l : list (nat * bytes)) : list (nat * bytes) :=
    filter (fun x => negb (Nat.eqb i (fst x))) l.

  (** The two loops of get_handler, router.cpp:15-31, with what the lambda holds. *)
  Fixpoint find_element (ss : list static) (array index : nat) (path : bytes) (method : nat) (target : closure) : closure :=
    match ss with
    | [] => target
    | s :: ss' =>
      find_element ss' array (S index) path method (if static_matches s path then Lambda path method array index else target)
    end.
  (** get_handler, router.cpp:11-36, called with a reference to string [i]. *)
  Definition get_closure (l : life) (path : bytes) (i : nat) : out closure :=
    match string_at i (l_strings l) with
    | None => Undef
    | Some method =>
      Ret (match find_route W (r_routes W (l_router l)) path method with
           | Some h => Copied h
           | None => if bytes_eqb method (str "GET") || bytes_eqb method (str "HEAD")
                     then find_element (r_static W (l_router l)) (l_array l) 0 path i (Copied (default_handler W))
                     else Copied (default_handler W)
           end)
    end.
  (** Calling it.  A reference to a string that is gone, or into an array given up, is
      not to be used. *)
  Definition call_closure (l : life) (c : closure) (rq : request) (w : W) : out (W * option response) :=
    match c with
    | Copied h => Ret (h rq w)
    | Lambda path i array index =>
      if Nat.eqb array (l_array l) then
        match nth_error (r_static W (l_router l)) index, string_at i (l_strings l) with
        | Some s, Some method =>
          match static_handle (files w) s path (bytes_eqb method (str "HEAD")) with
          | Ret r => Ret (w, Some r)
          | Throw => Ret (w, None)
          | Undef => Undef
          | Fuel => Fuel
          end
        | _, _ => Undef
        end
      else Undef
    end.

  (** What the caller does: strings are made, assigned to and destroyed; routes and static
      handlers added (add_route, router.cpp:38-42; add_static_handler, 44-46); a handler obtained. *)
  Inductive op :=
  | MakeString (i : nat) (s : bytes)
  | AssignString (i : nat) (s : bytes)
  | DropString (i : nat)
  | NewRoute (path method : bytes) (h : handler W)
  | NewStatic (s : static)
  | Obtain (path : bytes) (i : nat).
  (** One thing the caller does; router.cpp:11-46. *)
  Definition step (l : life) (x : op) : out life :=
    match x with
    | MakeString i s =>
      if existsb (Nat.eqb i) (l_used l) then Undef
      else Ret (Life ((i, s) :: l_strings l) (i :: l_used l) (l_router l) (l_array l) (l_room l) (l_handlers l))
    | AssignString i s =>
      match string_at i (l_strings l) with
      | None => Undef
      | Some _ => Ret (Life ((i, s) :: drop_string i (l_strings l)) (l_used l) (l_router l) (l_array l) (l_room l) (l_handlers l))
      end
    | DropString i =>
      match string_at i (l_strings l) with
      | None => Undef
      | Some _ => Ret (Life (drop_string i (l_strings l)) (l_used l) (l_router l) (l_array l) (l_room l) (l_handlers l))
      end
    | NewRoute p m h => Ret (Life (l_strings l) (l_used l) (add_route W p m h (l_router l)) (l_array l) (l_room l) (l_handlers l))
    | NewStatic s =>
      let r := add_static_handler W s (l_router l) in
      if Nat.eqb (length (r_static W (l_router l))) (l_room l)
      then Ret (Life (l_strings l) (l_used l) r (S (l_array l)) (Nat.max 1 (2 * l_room l)) (l_handlers l))
      else Ret (Life (l_strings l) (l_used l) r (l_array l) (l_room l) (l_handlers l))
    | Obtain p i =>
      let! c := get_closure l p i in
      Ret (Life (l_strings l) (l_used l) (l_router l) (l_array l) (l_room l) (l_handlers l ++ [c]))
    end.
  (** Such things in sequence. *)
  Fixpoint lives (xs : list op) (l : life) : out life :=
    match xs with
    | [] => Ret l
    | x :: xs' => let! l' := step l x in lives xs' l'
    end.
  (** The [k]-th handler obtained is called with [rq]. *)
  Definition call (l : life) (k : nat) (rq : request) (w : W) : out (W * option response) :=
    match nth_error (l_handlers l) k with None => Undef | Some c => call_closure l c rq w end.
End Life.
