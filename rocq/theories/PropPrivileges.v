(** The process gives up gaining privileges (C117). *)
From Verif Require Import Base BaseLemmas Huffman Http Conn SpecConn ConnLemmas ConnBasic ConnTerm ConnSpec ConnWit
  FileSys Files Router AccessLog Messages Poller Server SpecServer ServerProofs ServerReach PropServer PropServer2 App PropApp PropFiles SpecFiles SpecProgram ProgramProofs PropProgram ProcCtrl.

(** ** C117.  No request is served by a process that can gain privileges.

    [at_start linux set get inherited w]: the world in which the server is made, when the
    system answers [set] to the attempt to set the attribute and [get] to questions about it.

    Missing: on Linux, and when the system carries it out.  Then it remains so, whatever the
    server is asked. *)
Theorem C117_no_new_privileges_partial : forall listener page a cs T k0 w get inherited ok A pending s,
  let w0 := fst (at_start true Accepted get inherited w) in
  setting listener k0 -> reached true listener world (main_app page a) cs T k0 w0 ok A pending s -> args_ok a (w_os w) ->
  fst (enable_no_new_privs_on_linux true Accepted inherited) = true /\ snd (at_start true Accepted get inherited w) = [Msg LDebug (str "PR_SET_NO_NEW_PRIVS enabled")] /\
  (get = Accepted -> w_no_new_privs (sv_world world s) = true).
Proof.
  intros listener page a cs T k0 w get inherited ok A pending s w0 Hs H Ha. split; [reflexivity|]. split; [reflexivity|]. intros ->.
  destruct (C78_one_sequence _ _ _ _ _ _ _ _ _ _ _ _ Hs H) as [h [_ _ H3]].
  destruct (main_handled page a (w_os w0) (w_no_new_privs w0) Ha w0 _ _ (conj eq_refl eq_refl) H3) as [_ [_ K]]. rewrite K. reflexivity.
Qed.
Print Assumptions C117_no_new_privileges_partial.

Lemma test_route_answer page a o nnp r : a_under_test a = true ->
  program_answer page a o nnp (str "/_tests/no_new_privs") (str "GET") r -> r = Response (if nnp then 200 else 500) [] [].
Proof.
  intros Ha H.
  assert (G : forall r, first_answer page a o nnp (str "/_tests/no_new_privs") (str "GET") r -> r = Response (if nnp then 200 else 500) [] []).
  { clear r H. intros r H. destruct H as [st now _ _ E|r _ _ E|url root r K _ _|K _].
    - discriminate E.
    - remember (str "/_tests/no_new_privs") as p eqn:Ep. destruct E; [discriminate Ep|discriminate Ep|reflexivity|discriminate Ep|discriminate Ep].
    - elim K. split; [reflexivity|]. right. split; [exact Ha|]. eexists. apply test_privs.
    - elim K. split; [reflexivity|]. right. split; [exact Ha|]. eexists. apply test_privs. }
  destruct H as [r H _|r l b t H _ E _ _|r H _ E _]; [now apply G| |]; apply G in H; subst r; destruct nnp; discriminate E.
Qed.

(** The tests' route tells it, truly, in every request on every connection: 200 if the
    attribute is set and the system says so, else 500. *)
Theorem C117_route : forall linux listener page a cs T k0 w set get inherited ok A pending s e rq an,
  let w0 := fst (at_start linux set get inherited w) in
  setting listener k0 -> reached linux listener world (main_app page a) cs T k0 w0 ok A pending s ->
  args_ok a (w_os w) -> a_under_test a = true -> anyone world s e -> In (rq, an) (requests (e_trace e)) ->
  rq_path rq = str "/_tests/no_new_privs" -> rq_method rq = str "GET" ->
  an = Some (Response (match linux, get with
                       | true, Accepted => match set with Accepted => 200 | Refused _ => if inherited then 200 else 500 end
                       | _, _ => 500
                       end) [] []).
Proof.
  intros linux listener page a cs T k0 w set get inherited ok A pending s e rq an w0 Hs H Ha Hu He Hin Ep Em.
  assert (Eo : w_os w0 = w_os w). { subst w0. unfold at_start. now destruct (enable_no_new_privs_on_linux linux set inherited). }
  destruct (C80_answers linux listener page a cs T k0 w0 ok A pending s e rq an Hs H) as (r & -> & P); auto; [now rewrite Eo|].
  rewrite Ep, Em in P. apply test_route_answer in P; [|exact Hu]. rewrite P. f_equal. subst w0. clear.
  destruct linux, set, get, inherited; reflexivity.
Qed.
Print Assumptions C117_route.

(** The program never claims it falsely; that the system refuses to tell is reported. *)
Theorem C117_claim : forall linux get nnp,
  (fst (check_no_new_privs linux get nnp) = true -> nnp = true) /\
  (snd (check_no_new_privs linux get nnp) = [] <-> linux = false \/ get = Accepted) /\
  forall why, get = Refused why -> linux = true ->
    snd (check_no_new_privs linux get nnp) = [Msg LWarn (str "failed to get PR_GET_NO_NEW_PRIVS: " ++ why)].
Proof.
  intros linux get nnp. split; [|split].
  - destruct linux, get; cbn; easy.
  - destruct linux, get; cbn; split; intros H; auto; try discriminate. destruct H; discriminate.
  - intros why -> ->. reflexivity.
Qed.
Print Assumptions C117_claim.

(** So does the call that sets it: it returns true only if the attribute is set then, never
    takes it back, and a refusal is reported. *)
Theorem C117_set : forall linux p nnp,
  let '(set, nnp', ms) := enable_no_new_privs linux p nnp in
  (set = true <-> linux = true /\ p = Accepted) /\ (set = true -> nnp' = true /\ ms = [Msg LDebug (str "PR_SET_NO_NEW_PRIVS enabled")]) /\
  (set = false -> nnp' = nnp) /\ (linux = false -> ms = []) /\
  forall why, linux = true -> p = Refused why -> ms = [Msg LWarn (str "failed to set PR_SET_NO_NEW_PRIVS: " ++ why)].
Proof.
  intros [] [|why] nnp; cbn; (split; [split; [easy|intros [? ?]; easy]|]); (split; [easy|]); (split; [easy|]); (split; [easy|]).
  - discriminate.
  - intros why' _ E. apply (f_equal (fun p => match p with Refused y => y | _ => [] end)) in E. now subst.
  - discriminate.
  - discriminate.
Qed.
Print Assumptions C117_set.

(** When the system refuses, and anywhere else than on Linux, the program serves
    nevertheless: with a warning, or without. *)
Definition asked : list iteration :=
  [at_time 0 [arrives 5]; at_time 0 [sends 5 (w_hello ++ get 1 (str "/_tests/no_new_privs"))]].
Definition tested_args : args := Args true [] [] [] [] true true.
Theorem C117_no_new_privileges_refuted : forall linux T why, exists s e,
  let start := at_start linux (Refused why) Accepted false a_world in
  snd start = (if linux then [Msg LWarn (str "failed to set PR_SET_NO_NEW_PRIVS: " ++ why)] else []) /\
  reached linux 3 world (main_app short_page tested_args) true T k_std (fst start) true enough_resources [] s /\ conn_at world s 5 e /\
  map (fun x => (rq_path (fst x), snd x)) (requests (e_trace e)) = [(str "/_tests/no_new_privs", Some (Response 500 [] []))].
Proof.
  intros linux T why.
  destruct (by_reached (linux := linux) (app := main_app short_page tested_args) (cs := true) (T := T)
     (w0 := fst (at_start linux (Refused []) Accepted false a_world)) asked
    (fun s => match mget 5 (sv_conns world s) with Some e => map (fun x => (rq_path (fst x), snd x)) (requests (e_trace e)) =
      [(str "/_tests/no_new_privs", Some (Response 500 [] []))] | None => False end)) as (s & H & K).
  - destruct linux; vm_compute; reflexivity.
  - apply iterations_ok. vm_compute. reflexivity.
  - destruct (mget 5 (sv_conns world s)) as [e|] eqn:E; [|destruct K]. exists s, e. split; [destruct linux; reflexivity|].
    split; [destruct linux; exact H|]. split; [exact E|exact K].
Qed.
Print Assumptions C117_no_new_privileges_refuted.

Example C117_case : forall T, exists s e,
  let start := at_start true Accepted Accepted false a_world in
  setting 3 k_std /\ reached true 3 world (main_app short_page tested_args) true T k_std (fst start) true enough_resources [] s /\
  args_ok tested_args (w_os a_world) /\ a_under_test tested_args = true /\ conn_at world s 5 e /\
  map (fun x => (rq_path (fst x), rq_method (fst x), snd x)) (requests (e_trace e)) =
    [(str "/_tests/no_new_privs", str "GET", Some (Response 200 [] []))].
Proof.
  intros T.
  destruct (by_reached (linux := true) (app := main_app short_page tested_args) (cs := true) (T := T)
     (w0 := fst (at_start true Accepted Accepted false a_world)) asked
    (fun s => match mget 5 (sv_conns world s) with Some e => map (fun x => (rq_path (fst x), rq_method (fst x), snd x)) (requests (e_trace e)) =
      [(str "/_tests/no_new_privs", str "GET", Some (Response 200 [] []))] | None => False end)) as (s & H & K).
  - vm_compute; reflexivity.
  - apply iterations_ok. vm_compute. reflexivity.
  - destruct (mget 5 (sv_conns world s)) as [e|] eqn:E; [|destruct K]. exists s, e. split; [exact k_std_setting|].
    split; [exact H|]. split; [|split; [reflexivity|split; [exact E|exact K]]].
    split; [exact an_os_cwd|]. split; [easy|]. intros url root [=].
Qed.
