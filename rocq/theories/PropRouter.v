(** C55, C56: routing. *)
From Verif Require Import Base BaseLemmas Http FileSys Files Router SpecRouter RouterProofs.

(** ** C55.  After any registrations there is exactly one destination for a request ... *)
Theorem C55_destination : forall W xs p m,
  exists d, chosen W xs p m d /\ forall d', chosen W xs p m d' -> d' = d.
Proof.
  intros W xs p m. destruct (target_spec W (fun _ => OS (fun _ => None) [] 0) xs p m) as (d & _ & Hc & _).
  exists d. split; [exact Hc|]. intros d' Hd. exact (chosen_unique W xs p m d' Hd d Hc).
Qed.
Print Assumptions C55_destination.

(** ... and, without middleware, what answers there answers the request. *)
Theorem C55_precedence : forall W files xs rq d w,
  middlewares W xs = [] -> chosen W xs (rq_path rq) (rq_method rq) d ->
  exists h, answers W files (rq_path rq) (rq_method rq) d h /\
    dispatch W files (configure W xs) rq w =
      (fst (h rq w), match snd (h rq w) with Some r => Answers r | None => Fails end).
Proof.
  intros W files xs rq d w Hm Hd. destruct (dispatch_spec W files xs rq d Hd) as (h & Ha & H). exists h. split; [exact Ha|].
  rewrite Hm in H. exact (H w w (Some h) (wraps_none W h w)).
Qed.
Print Assumptions C55_precedence.

Definition fixed (n : Z) : handler unit := fun _ w => (w, Some (Response n [] [])).
Definition some_routes : list (registration unit) :=
  [AddRoute (str "/a") (str "GET") (fixed 1); AddStatic (Static (str "/s") (str "/one"));
   AddStatic (Static (str "/s") (str "/two")); AddRoute (str "/a") (str "GET") (fixed 2);
   AddRoute (str "/s") (str "POST") (fixed 3); AddRoute (str "/s/x") (str "GET") (fixed 4)].
Definition no_files : os := OS (fun _ => None) [] 0.
Example C55_case :
  chosen unit some_routes (str "/a") (str "GET") (ToRoute unit (fixed 1)) /\
  chosen unit some_routes (str "/s/x") (str "GET") (ToRoute unit (fixed 4)) /\
  chosen unit some_routes (str "/s/y") (str "GET") (ToStatic unit (Static (str "/s") (str "/two"))) /\
  chosen unit some_routes (str "/s/y") (str "POST") (ToNothing unit) /\
  map (fun x => snd (dispatch unit (fun _ => no_files) (configure unit some_routes) (Request (str (fst x)) (str (snd x)) []) tt))
      [("GET", "/a"); ("GET", "/s/x"); ("GET", "/s/y"); ("POST", "/s/y"); ("POST", "/s"); ("GET", "/b")]%string =
  map (fun n => Answers (Response n [] [])) [1; 4; 403; 404; 3; 404].
Proof.
  assert (N : forall p m, forallb (fun x : registration unit => match x with AddRoute p' m' _ => negb (bytes_eqb p' p && bytes_eqb m' m) | _ => true end) some_routes = true ->
    forall x, In x some_routes -> ~ is_route unit p m x).
  { intros p m H x Hx [h ->]. rewrite forallb_forall in H. apply H in Hx. now rewrite !bytes_eqb_refl in Hx. }
  split; [|split; [|split; [|split]]].
  - eapply (chosen_route unit some_routes _ _ []); [reflexivity|easy].
  - eapply (chosen_route unit some_routes _ _ [_; _; _; _; _] []); [reflexivity|].
    intros x Hx. repeat (destruct Hx as [<-|Hx]; [intros [h E]; try discriminate E|]). destruct Hx.
  - eapply (chosen_static unit some_routes _ _ [_; _] _ _ (str "/y")); [apply N; reflexivity|now left|reflexivity|reflexivity|].
    intros x Hx. repeat (destruct Hx as [<-|Hx]; [intros (s & r & E & _); discriminate E|]). destruct Hx.
  - apply chosen_nothing; [apply N; reflexivity|left; easy].
  - vm_compute. reflexivity.
Qed.

(** ** C56.  The middlewares are put around whatever was chosen, the first registered
    outermost. *)
Theorem C56_nesting : forall W files xs rq d,
  chosen W xs (rq_path rq) (rq_method rq) d ->
  exists h, answers W files (rq_path rq) (rq_method rq) d h /\
    forall w, exists w1 res, wraps W (middlewares W xs) h w (w1, res) /\
      dispatch W files (configure W xs) rq w =
        match res with
        | None => (w1, Escapes)
        | Some h' => (fst (h' rq w1), match snd (h' rq w1) with Some r => Answers r | None => Fails end)
        end.
Proof.
  intros W files xs rq d Hd. destruct (dispatch_spec W files xs rq d Hd) as (h & Ha & H). exists h. split; [exact Ha|].
  intros w. destruct (wraps_total W (middlewares W xs) h w) as [[w1 res] Hw]. exists w1, res. split; [exact Hw|exact (H w w1 res Hw)].
Qed.
Print Assumptions C56_nesting.

(** What "around" means: with middlewares that note a request passing in and out, every
    request passes each of them once, in order of registration, and back. *)
Theorem C56_every_middleware_once : forall V files xs ns rq d l v,
  middlewares (list mark * V) xs = map (marking V) ns ->
  chosen (list mark * V) xs (rq_path rq) (rq_method rq) d ->
  exists h, answers (list mark * V) files (rq_path rq) (rq_method rq) d h /\
    dispatch (list mark * V) files (configure (list mark * V) xs) rq (l, v) =
      match h rq (l ++ map Enter ns, v) with
      | (w2, None) => (w2, Fails)
      | ((l2, v2), Some r) => ((l2 ++ map Leave (rev ns), v2), Answers r)
      end.
Proof.
  intros V files xs ns rq d l v Hm Hd. destruct (dispatch_spec _ files xs rq d Hd) as (h & Ha & H). exists h. split; [exact Ha|].
  rewrite Hm in H. destruct (marks_wrap V ns h (l, v)) as (h' & Hw & Hh). rewrite (H _ _ _ Hw), Hh.
  destruct (h rq (l ++ map Enter ns, v)) as [[l2 v2] [r|]]; reflexivity.
Qed.
Print Assumptions C56_every_middleware_once.

Example C56_case : let W := (list mark * unit)%type in
  let xs := [AddMiddleware (marking unit 1); AddStatic (Static (str "/s") (str "/one")); AddMiddleware (marking unit 2);
             AddRoute (str "/a") (str "GET") (fun _ (w : W) => (w, None))] in
  middlewares W xs = map (marking unit) [1; 2]%nat /\
  map (fun p => dispatch W (fun _ => no_files) (configure W xs) (Request (str "GET") (str p) []) ([], tt)) ["/s/x"; "/b"; "/a"]%string =
  [(([Enter 1; Enter 2; Leave 2; Leave 1], tt), Answers (Response 403 [] []));
   (([Enter 1; Enter 2; Leave 2; Leave 1], tt), Answers (Response 404 [] []));
   (([Enter 1; Enter 2], tt), Fails)]%nat.
Proof. split; [reflexivity|]. vm_compute. reflexivity. Qed.
