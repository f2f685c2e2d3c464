(** Which handler a request should get and what surrounds it. *)
From Verif Require Import Base Http FileSys Files Router.

Section Spec.
  Variable W : Type.
  Variable files : W -> os.

  (** What a request can be dispatched to. *)
  Inductive destination := ToRoute (h : handler W) | ToStatic (s : static) | ToNothing.

  Definition is_route (p m : bytes) (x : registration W) : Prop := exists h, x = AddRoute p m h.
  Definition is_prefix_of (p : bytes) (x : registration W) : Prop :=
    exists s rest, x = AddStatic s /\ p = st_prefix s ++ rest.

  (** After the registrations [xs], a request for path [p] with method [m] goes to the
      first route for exactly them; without one, and for GET and HEAD only, to the last
      static handler whose prefix matches; otherwise nowhere. *)
  Inductive chosen (xs : list (registration W)) (p m : bytes) : destination -> Prop :=
  | chosen_route : forall a b h, xs = a ++ AddRoute p m h :: b -> (forall x, In x a -> ~ is_route p m x) ->
      chosen xs p m (ToRoute h)
  | chosen_static : forall a b s rest, (forall x, In x xs -> ~ is_route p m x) ->
      m = str "GET" \/ m = str "HEAD" ->
      xs = a ++ AddStatic s :: b -> p = st_prefix s ++ rest -> (forall x, In x b -> ~ is_prefix_of p x) ->
      chosen xs p m (ToStatic s)
  | chosen_nothing : (forall x, In x xs -> ~ is_route p m x) ->
      (m <> str "GET" /\ m <> str "HEAD") \/ (forall x, In x xs -> ~ is_prefix_of p x) ->
      chosen xs p m ToNothing.

  (** What answers there: the application's handler, the static handler's response for
      the path, or 404. *)
  Inductive answers (p m : bytes) : destination -> handler W -> Prop :=
  | answers_route : forall h, answers p m (ToRoute h) h
  | answers_static : forall s h,
      (forall rq w, exists r, static_handle (files w) s p (bytes_eqb m (str "HEAD")) = Ret r /\ h rq w = (w, Some r)) ->
      answers p m (ToStatic s) h
  | answers_nothing : forall h, (forall rq w, h rq w = (w, Some (Response 404 [] []))) ->
      answers p m ToNothing h.

  (** [wraps ms h w res]: putting the middlewares [ms] around [h], the first of them
      outermost, starting in state [w].  The innermost is applied first; if one throws,
      so does the whole. *)
  Inductive wraps : list (middleware W) -> handler W -> W -> W * option (handler W) -> Prop :=
  | wraps_none : forall h w, wraps [] h w (w, Some h)
  | wraps_more : forall ms (m : middleware W) h w w1 h1 res,
      m h w = (w1, Some h1) -> wraps ms h1 w1 res -> wraps (ms ++ [m]) h w res
  | wraps_throws : forall ms (m : middleware W) h w w1,
      m h w = (w1, None) -> wraps (ms ++ [m]) h w (w1, None).

  (** The middlewares among the registrations, in order. *)
  Definition middlewares (xs : list (registration W)) : list (middleware W) :=
    flat_map (fun x => match x with AddMiddleware m => [m] | _ => [] end) xs.
End Spec.
