(** C96: handlers obtained from the router and called later. *)
From Verif Require Import Base BaseLemmas Http FileSys Files SpecFiles FilesProofs FilesServe Router SpecRouter RouterProofs RouterLife SpecRouterLife RouterLifeProofs PropFiles.

(** Whatever happens between obtaining a handler and calling it, this is the answer: a
    route's handler and the 404 are what they were; a static file is answered for the path
    asked for then and the method the string says now, if the string still exists and the
    static handlers have stayed where they were, and otherwise anything may happen. *)
Theorem C96_called : forall W files a p i b l rq w,
  lives W (a ++ Obtain W p i :: b) (new_life W) = Ret l ->
  exists m, has_value W a i m /\ forall d, chosen W (registered W a) p m d ->
    match d with
    | ToRoute _ h => call W files l (obtained W a) rq w = Ret (h rq w)
    | ToNothing _ => call W files l (obtained W a) rq w = Ret (w, Some (Response 404 [] []))
    | ToStatic _ s =>
      (forall v, has_value W (a ++ Obtain W p i :: b) i v -> stays (statics W a) (statics W b) ->
         exists r, static_handle (files w) s p (bytes_eqb v (str "HEAD")) = Ret r /\ call W files l (obtained W a) rq w = Ret (w, Some r)) /\
      ((forall v, ~ has_value W (a ++ Obtain W p i :: b) i v) \/ ~ stays (statics W a) (statics W b) -> call W files l (obtained W a) rq w = Undef)
    end.
Proof. exact called. Qed.
Print Assumptions C96_called.

(** In full: the handler answers as it would have when it was obtained.  That holds if the
    string and the static handlers have been left alone. *)
Theorem C96_later_partial : forall W files a p i b l rq w m d,
  lives W (a ++ Obtain W p i :: b) (new_life W) = Ret l -> has_value W a i m -> chosen W (registered W a) p m d ->
  (forall x, In x b -> ~ concerns W i x) -> statics W b = 0%nat ->
  exists h, answers W files p m d h /\ call W files l (obtained W a) rq w = Ret (h rq w).
Proof.
  intros W files a p i b l rq w m d E Hm Hd Hb Hs. destruct (C96_called W files a p i b l rq w E) as (m' & Hm' & K).
  assert (Hv : forall v, has_value W a i v -> has_value W (a ++ Obtain W p i :: b) i v).
  { intros v (xa & xb & Ex & Hx). exists xa, (xb ++ Obtain W p i :: b). split; [destruct Ex as [-> | ->]; rewrite <- !app_assoc; auto|].
    intros x Kx. apply in_app_or in Kx as [Kx|[<-|Kx]]; auto. }
  assert (m' = m) as ->.
  { apply lives_app in E as (l1 & E1 & _). pose proof (ok_lives _ _ _ _ _ (ok_new W) E1) as O1. cbn [Datatypes.app] in O1.
    apply (ok_string _ _ _ O1) in Hm, Hm'. congruence. }
  specialize (K d Hd). destruct d as [h|s|].
  - exists h. split; [constructor|exact K].
  - destruct K as [K _]. destruct (K m (Hv m Hm)) as (r & Kr & Kc); [left; exact Hs|].
    exists (static_route W files s p m). assert (M : static_matches s p = true).
    { inversion Hd; subst. now apply matches_prefix; eauto. }
    split; [now apply static_route_answers|]. rewrite Kc. unfold static_route. now rewrite Kr.
  - exists (default_handler W). split; [now constructor|exact K].
Qed.
Print Assumptions C96_later_partial.

(** Otherwise not.  [between]: what may happen in between. *)
Definition as_obtained (between : nat -> list (op unit) -> Prop) : Prop := forall files a p i b l rq w m d,
  lives unit (a ++ Obtain unit p i :: b) (new_life unit) = Ret l -> has_value unit a i m -> chosen unit (registered unit a) p m d ->
  between i b -> exists h, answers unit files p m d h /\ call unit files l (obtained unit a) rq w = Ret (h rq w).
Definition serving_files : list (op unit) := [NewStatic unit www; MakeString unit 0 (str "GET")].
Lemma serving_chosen : has_value unit serving_files 0 (str "GET") /\
  chosen unit (registered unit serving_files) (str "/static/a.txt") (str "GET") (ToStatic unit www).
Proof.
  split; [exists [NewStatic unit www], []; split; [now left|easy]|].
  eapply (chosen_static _ _ _ _ [] [] www (str "/a.txt")); try reflexivity; [|now left|easy]. intros x [<-|[]] [h K]. discriminate.
Qed.
(** The string is destroyed. *)
Theorem C96_gone_refuted : ~ as_obtained (fun i b => b = [DropString unit i]).
Proof.
  intros H. destruct serving_chosen as [H1 H2].
  destruct (H (fun _ => an_os) serving_files _ 0%nat [DropString unit 0] _ (Request [] [] []) tt _ _ eq_refl H1 H2 eq_refl) as (h & _ & K).
  vm_compute in K. discriminate K.
Qed.
Print Assumptions C96_gone_refuted.
(** It gets another value: a GET is answered as if it were a HEAD. *)
Theorem C96_changed_refuted : ~ as_obtained (fun i b => exists v, b = [AssignString unit i v]).
Proof.
  intros H. destruct serving_chosen as [H1 H2].
  destruct (H (fun _ => an_os) serving_files _ 0%nat [AssignString unit 0 (str "HEAD")] _ (Request [] [] []) tt _ _ eq_refl H1 H2 (ex_intro _ _ eq_refl)) as (h & Ha & K).
  inversion Ha as [|s h' Hr|]; subst. destruct (Hr (Request [] [] []) tt) as (r & E & Eh). rewrite Eh in K. vm_compute in E. injection E as <-. vm_compute in K. discriminate K.
Qed.
Print Assumptions C96_changed_refuted.
(** Another directory is added to the router. *)
Theorem C96_moved_refuted : ~ as_obtained (fun i b => exists s, b = [NewStatic unit s]).
Proof.
  intros H. destruct serving_chosen as [H1 H2].
  destruct (H (fun _ => an_os) serving_files _ 0%nat [NewStatic unit www] _ (Request [] [] []) tt _ _ eq_refl H1 H2 (ex_intro _ _ eq_refl)) as (h & _ & K).
  vm_compute in K. discriminate K.
Qed.
Print Assumptions C96_moved_refuted.

(** Three directories: the array has room for a fourth, but not for a fifth. *)
Definition three : list (op unit) := [NewStatic unit (Static (str "/a") (str "/a")); NewStatic unit www; NewStatic unit (Static (str "/c") (str "/c"));
  NewRoute unit (str "/x") (str "GET") (fun _ w => (w, Some (Response 204 [] []))); MakeString unit 7 (str "GET")].
Definition text_answer : response := Response 200 [Hdr (str "content-type") (str "text/plain; charset=utf-8")] (str "text").
Example C96_case :
  let gets := [Obtain unit (str "/x") 7; Obtain unit (str "/static/a.txt") 7; Obtain unit (str "/y") 7] in
  let later xs k := let! l := lives unit (three ++ gets ++ xs) (new_life unit) in call unit (fun _ => an_os) l k (Request [] [] []) tt in
  map (later []) [0; 1; 2]%nat = [Ret (tt, Some (Response 204 [] [])); Ret (tt, Some text_answer); Ret (tt, Some (Response 404 [] []))] /\
  map (later [NewStatic unit www]) [0; 1; 2]%nat = [Ret (tt, Some (Response 204 [] [])); Ret (tt, Some text_answer); Ret (tt, Some (Response 404 [] []))] /\
  map (later [NewStatic unit www; NewStatic unit www]) [0; 1; 2]%nat = [Ret (tt, Some (Response 204 [] [])); Undef; Ret (tt, Some (Response 404 [] []))] /\
  map (later [DropString unit 7]) [0; 1; 2]%nat = [Ret (tt, Some (Response 204 [] [])); Undef; Ret (tt, Some (Response 404 [] []))] /\
  stays (statics unit three) 1 /\ ~ stays (statics unit three) 2.
Proof. cbv zeta. repeat split; try (vm_compute; reflexivity); unfold stays; cbn; lia. Qed.
