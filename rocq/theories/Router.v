(** Model of lib/router.cpp.  [W] is the state everything outside the router has: the
    application's data, files, clocks. *)
From Verif Require Import Base Http FileSys Files.

Section Router.
  Variable W : Type.
  (** The files as the static handlers find them. *)
  Variable files : W -> os.

  (** using RouteHandler, Middleware, router.h:12-13.  None: a std::exception is thrown. *)
  Definition handler := request -> W -> W * option response.
  (** using Middleware, router.h:13. *)
  Definition middleware := handler -> W -> W * option handler.
  (** struct Route, router.h:15-19. *)
  Record route := Route { rt_path : bytes; rt_method : bytes; rt_handler : handler }.
  (** class Router, router.h:21-35. *)
  Record router := Router { r_routes : list route; r_static : list static; r_chain : middleware }.

  (** The default handler, router.cpp:8, and the empty chain, router.h:34. *)
  Definition default_handler : handler := fun _ w => (w, Some (Response 404 [] [])).
  (** The initial chain, router.h:34. *)
  Definition no_middleware : middleware := fun h w => (w, Some h).
  (** The constructor, router.cpp:7-9. *)
  Definition new_router : router := Router [] [] no_middleware.

  (** add_route, router.cpp:38-42. *)
  Definition add_route (path method : bytes) (h : handler) (r : router) : router :=
    Router (r_routes r ++ [Route path method h]) (r_static r) (r_chain r).
  (** add_static_handler, router.cpp:44-46. *)
  Definition add_static_handler (s : static) (r : router) : router :=
    Router (r_routes r) (r_static r ++ [s]) (r_chain r).
  (** add_middleware, router.cpp:48-53. *)
  Definition add_middleware (mw : middleware) (r : router) : router :=
    Router (r_routes r) (r_static r) (fun h w =>
      let (w1, h1) := mw h w in
      match h1 with None => (w1, None) | Some h1 => r_chain r h1 w1 end).

  (** The lambda of get_handler, router.cpp:27-29: it keeps the path and method it was made with and
      ignores the request it is called with. *)
  Definition static_route (s : static) (path method : bytes) : handler := fun _ w =>
    match static_handle (files w) s path (bytes_eqb method (str "HEAD")) with
    | Ret r => (w, Some r)
    | _ => (w, None)
    end.
  (** The loop over routes, router.cpp:15-21. *)
  Fixpoint find_route (rs : list route) (path method : bytes) : option handler :=
    match rs with
    | [] => None
    | r :: rs' => if bytes_eqb (rt_path r) path && bytes_eqb (rt_method r) method then Some (rt_handler r)
                  else find_route rs' path method
    end.
  (** The loop over static handlers, router.cpp:25-31: it does not stop at the first match. *)
  Fixpoint find_static (ss : list static) (path method : bytes) (target : handler) : handler :=
    match ss with
    | [] => target
    | s :: ss' => find_static ss' path method (if static_matches s path then static_route s path method else target)
    end.
  (** get_handler, router.cpp:11-36. *)
  Definition get_handler (r : router) (path method : bytes) (w : W) : W * option handler :=
    let target :=
      match find_route (r_routes r) path method with
      | Some h => h
      | None => if bytes_eqb method (str "GET") || bytes_eqb method (str "HEAD")
                then find_static (r_static r) path method default_handler
                else default_handler
      end in
    r_chain r target w.
  (** What a connection does with a request, http2_conn.cpp:457-466. *)
  Definition dispatch (r : router) (rq : request) (w : W) : W * app_answer :=
    let (w1, h) := get_handler r (rq_path rq) (rq_method rq) w in
    match h with
    | None => (w1, Escapes)
    | Some h => let (w2, a) := h rq w1 in (w2, match a with Some r => Answers r | None => Fails end)
    end.

  (** Calls of add_route, add_static_handler and add_middleware. *)
  Inductive registration :=
  | AddRoute (path method : bytes) (h : handler)
  | AddStatic (s : static)
  | AddMiddleware (m : middleware).
  (** One call of add_route, add_static_handler or add_middleware, router.cpp:38-53. *)
  Definition register (r : router) (x : registration) : router :=
    match x with
    | AddRoute p m h => add_route p m h r
    | AddStatic s => add_static_handler s r
    | AddMiddleware m => add_middleware m r
    end.
  (** Such calls one after the other, on a new router (router.cpp:7-9). *)
  Definition configure (xs : list registration) : router := fold_left register xs new_router.
End Router.
Arguments AddRoute {W}.
Arguments AddStatic {W}.
Arguments AddMiddleware {W}.
