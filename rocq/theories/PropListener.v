(** The listening socket and accepted connections at the level of system calls (C90). *)
From Verif Require Import Base BaseLemmas Huffman Http Conn Poller Server Listener SpecListener ServerProofs ListenerProofs.

(** ** C90.  Sockets are set up as they should be, whatever the system's calls answer. *)
(** [after little tr]: the sockets the process has after the calls [tr], as the system sees
    it.  There is a listener if and only if no call fails; it accepts connections to the given
    port on every address, does not block, and could be bound although the port was in use
    before.  Otherwise nothing is left open. *)
Theorem C90_set_up : forall little system port, reliable little system -> 0 <= port < 65536 ->
  match set_up system little port [] with
  | (Some fd, tr) => proper_calls little tr /\ 0 <= fd /\
      (exists s, mget fd (after little tr) = Some s /\ so_kind s = Some (2, 1, 0) /\ nonblocking s /\
         so_bound s = Some ([0; 0; 0; 0], port, true) /\ so_listening s = true /\ so_backlog s = 4096) /\
      forall x, x <> fd -> mget x (after little tr) = None
  | (None, tr) => proper_calls little tr /\ failed tr /\ forall x, mget x (after little tr) = None
  end.
Proof.
  intros little system port Hr Hp. pose proof (set_up_spec little system Hr port Hp) as S. destruct (set_up system little port []) as [[fd|] tr]; [|exact S].
  destruct S as (A & B & (f & S) & C). repeat (split; [assumption|]). split; [|exact C]. eexists. split; [exact S|]. cbn. repeat (split; [first [reflexivity|now exists f]|]). reflexivity.
Qed.
Print Assumptions C90_set_up.
(** Accepting: the new socket does not block and keeps its other flags; it sends without
    delay unless the system refuses.  EAGAIN and EINTR mean that there is none.  Everything
    else is an exception, after which the sockets are those there were before. *)
Theorem C90_accept : forall little system fd tr, reliable little system -> mget fd (after little tr) <> None ->
  let (res, tr') := accept_call system fd tr in
  let (r, e) := system tr (SysAccept fd) in
  exists l, tr' = tr ++ (SysAccept fd, r) :: l /\ (proper_calls little tr -> proper_calls little tr') /\
  match res with
  | Some (Some c) => c = r /\ 0 <= c /\ mget c (after little tr) = None /\
      (exists s, mget c (after little tr') = Some s /\ nonblocking s /\ (so_nodelay s = true <-> ~ failed l)) /\
      forall x, x <> c -> mget x (after little tr') = mget x (after little tr)
  | Some None => r < 0 /\ (e = 11 \/ e = 4) /\ forall x, mget x (after little tr') = mget x (after little tr)
  | None => (r < 0 /\ e <> 11 /\ e <> 4 \/ 0 <= r /\ failed (filter about_flags l)) /\
      forall x, mget x (after little tr') = mget x (after little tr)
  end.
Proof.
  intros little system fd tr Hr Ho. pose proof (accept_spec little system Hr fd tr Ho) as A. destruct (accept_call system fd tr) as [res tr'].
  destruct (system tr (SysAccept fd)) as [r e]. destruct A as (l & E & P & A). exists l. split; [exact E|]. split; [exact P|].
  destruct res as [[c|]|].
  - destruct A as (A1 & A2 & A3 & _ & (f & d & A4 & A5) & A6). repeat (split; [assumption|]). split; [|exact A6]. eexists. split; [exact A4|].
    split; [now exists f|exact A5].
  - tauto.
  - destruct A as [[A|[A1 [_ A2]]] B]; (split; [|exact B]); auto.
Qed.
Print Assumptions C90_accept.
(** At every moment the process has the listener and the accepted sockets that are not yet
    closed, and no others; the listener is still what it was, and none of them blocks.  No
    call is ever made on a descriptor that is not open. *)
Theorem C90_serving : forall little system port fd kept tr, reliable little system -> 0 <= port < 65536 ->
  serving system little port fd kept tr ->
  proper_calls little tr /\ NoDup (fd :: kept) /\ (forall x, mget x (after little tr) <> None <-> In x (fd :: kept)) /\
  (forall x s, mget x (after little tr) = Some s -> nonblocking s) /\
  exists s, mget fd (after little tr) = Some s /\ so_bound s = Some ([0; 0; 0; 0], port, true) /\ so_listening s = true.
Proof.
  intros little system port fd kept tr Hr Hp H. destruct (serving_spec little system Hr port Hp _ _ _ H) as (P & D & O & (f & S) & K).
  split; [exact P|]. split; [exact D|]. split; [intros x; rewrite (O x); cbn; intuition congruence|]. split; [|eexists; split; [exact S|easy]].
  intros x s Hx. assert (Ho : mget x (after little tr) <> None) by congruence. apply O in Ho as [->|Ho].
  - rewrite S in Hx. injection Hx as <-. now exists f.
  - destruct (K x Ho) as (f' & d & E). rewrite E in Hx. injection Hx as <-. now exists f'.
Qed.
Print Assumptions C90_serving.
(** At the end nothing is left open, however it comes about; an exception means that some
    call failed, and without one there was a socket that listened on the port. *)
Theorem C90_served : forall little system port thrown tr, reliable little system -> 0 <= port < 65536 ->
  served system little port thrown tr ->
  proper_calls little tr /\ (forall x, mget x (after little tr) = None) /\ (thrown = true -> failed tr) /\
  (thrown = false -> exists tr0 t fd s, tr = tr0 ++ t /\ mget fd (after little tr0) = Some s /\
    so_bound s = Some ([0; 0; 0; 0], port, true) /\ so_listening s = true).
Proof. intros little system port thrown tr Hr Hp. apply served_spec; assumption. Qed.
Print Assumptions C90_served.

(** The answers as the model of the server (Server.v) takes them: there the calls that
    follow accept are one answer. *)
Definition taken (r e : Z) (flags_set : bool) : accept_result :=
  if r >=? 0 then AcceptFd r flags_set else if (e =? 11) || (e =? 4) then AcceptAgain else AcceptFails.
(** That model is right about them. *)
Theorem C90_refines : forall little system fd tr k a, reliable little system -> mget fd (after little tr) <> None ->
  let (r, e) := system tr (SysAccept fd) in
  let (res, tr') := accept_call system fd tr in
  (0 <= r -> mget r (k_open k) = None) ->
  (forall l, tr' = tr ++ (SysAccept fd, r) :: l -> ar_accept a = taken r e (negb (existsb (fun x => snd x <? 0) (firstn 2 l)))) ->
  try_accept a k = match res with Some (Some c) => Ret (Some c, k_new c k) | Some None => Ret (None, k) | None => Throw end.
Proof.
  intros little system fd tr k a Hr Ho. pose proof (accept_spec little system Hr fd tr Ho) as A. destruct (accept_call system fd tr) as [res tr'].
  destruct (system tr (SysAccept fd)) as [r e]. intros Hk Ha. destruct A as (l & E & _ & A). specialize (Ha l E). unfold try_accept. rewrite Ha. unfold taken.
  assert (X : forall l0 : calls_made, existsb (fun x => snd x <? 0) l0 = true <-> failed l0).
  { intros l0. rewrite existsb_exists. split.
    - intros ([c q] & Hi & Q). exists c, q. split; [exact Hi|]. now apply Z.ltb_lt.
    - intros (c & q & Hi & Q). exists (c, q). split; [exact Hi|]. now apply Z.ltb_lt. }
  destruct res as [[c|]|].
  - destruct A as (-> & A1 & A2 & A3 & _). destruct (Z.geb_spec r 0); [|lia].
    destruct (existsb (fun x => snd x <? 0) (firstn 2 l)) eqn:F; [exfalso; apply A3, X, F|]. cbn [negb].
    unfold mhas. rewrite (Hk A1). destruct (Z.ltb_spec r 0); [lia|]. reflexivity.
  - destruct A as (A1 & A2 & _). destruct (Z.geb_spec r 0); [lia|]. destruct A2 as [->| ->]; reflexivity.
  - destruct A as [[(A1 & A2 & A3)|(A1 & A2 & _)] _].
    + destruct (Z.geb_spec r 0); [lia|]. destruct (Z.eqb_spec e 11); [easy|]. destruct (Z.eqb_spec e 4); easy.
    + destruct (Z.geb_spec r 0); [|lia]. apply X in A2. rewrite A2. unfold mhas. rewrite (Hk A1). destruct (Z.ltb_spec r 0); [lia|]. reflexivity.
Qed.
Print Assumptions C90_refines.

(** ** Cases *)
(** A system that hands out new descriptors from 3 on and on which the given calls (counted
    from 0) fail with the given errno. *)
Definition next_fd (tr : calls_made) : Z := fold_right (fun x m => Z.max m (snd x + 1)) 3 tr.
Definition obliging (fails : list (nat * Z)) (tr : calls_made) (c : syscall) : Z * Z :=
  match find (fun x => (fst x =? length tr)%nat) fails with
  | Some x => (-1, snd x)
  | None =>
    match c with
    | SysSocket _ _ _ | SysAccept _ => (next_fd tr, 0)
    | SysGetFlags _ => (2, 0)
    | _ => (0, 0)
    end
  end.
Lemma next_fd_above tr : 3 <= next_fd tr /\ forall c r, In (c, r) tr -> r < next_fd tr.
Proof.
  induction tr as [|[c r] tr [IH1 IH2]]; [split; [cbn; lia|easy]|].
  change (next_fd ((c, r) :: tr)) with (Z.max (next_fd tr) (r + 1)). split; [lia|].
  intros c' r' [[= <- <-]|Hi]; [lia|]. specialize (IH2 _ _ Hi). lia.
Qed.
Lemma obliging_reliable little fails : reliable little (obliging fails).
Proof.
  assert (G : forall b tr m, (forall x, x < 0 \/ b <= x -> mget x m = None) -> (forall c r, In (c, r) tr -> r < b) ->
    forall x, x < 0 \/ b <= x -> mget x (fold_left (after1 little) tr m) = None).
  { intros b. induction tr as [|[c r] tr IH]; intros m Hm Hc x Hx; [now apply Hm|]. cbn [fold_left]. apply IH; [|intros c' r' Hi; apply (Hc c' r'); now right|exact Hx].
    intros y Hy. assert (P : forall s fd, mget fd m <> None -> mget y (mput fd s m) = None).
    { intros s fd Hf. rewrite mget_mput. destruct (Z.eqb_spec y fd) as [->|]; [exfalso; apply Hf, Hm, Hy|now apply Hm]. }
    assert (Q : forall s, (r <? 0) = false -> mget y (mput r s m) = None).
    { intros s L. apply Z.ltb_ge in L. rewrite mget_mput. pose proof (Hc c r (or_introl eq_refl)). destruct (Z.eqb_spec y r); [lia|now apply Hm]. }
    destruct c; cbn [after1];
      try (destruct (mget fd m) eqn:E; [destruct (r <? 0); [now apply Hm|apply P; congruence]|now apply Hm]);
      try (destruct (r <? 0) eqn:L; [now apply Hm|now apply Q]).
    rewrite mget_mdel. destruct (y =? fd); [reflexivity|now apply Hm]. }
  intros tr c. destruct (next_fd_above tr) as [N1 N2].
  assert (A : forall x, x < 0 \/ next_fd tr <= x -> mget x (after little tr) = None) by (apply G; [reflexivity|exact N2]).
  unfold obliging. destruct (find _ fails) as [x|].
  - split; [cbn; lia|]. destruct c; cbn; try lia; try exact I; apply A; left; lia.
  - destruct c; cbn; (split; [lia|]); try exact I; try lia; apply A; right; lia.
Qed.
(** Port 8080; two connections, the second without TCP_NODELAY; then accept is interrupted;
    the first connection is closed; then the next accepted socket cannot be made non-blocking. *)
Definition sys_case : calls_made -> syscall -> Z * Z := obliging [(13%nat, 92); (14%nat, EINTR); (18%nat, 22)].
Example C90_case : exists tr, served sys_case true 8080 true tr /\ lenZ tr = 22 /\
  (exists tr1 tr2, tr = tr1 ++ tr2 /\ map fst (after true tr1) = [5; 4; 3]) /\
  In (SysBind 3 [2; 0; 31; 144; 0; 0; 0; 0; 0; 0; 0; 0; 0; 0; 0; 0], 0) tr.
Proof.
  set (r0 := set_up sys_case true 8080 []). set (r1 := accept_call sys_case 3 (snd r0)). set (r2 := accept_call sys_case 3 (snd r1)).
  set (r3 := accept_call sys_case 3 (snd r2)). 
  set (t4 := snd (do_call sys_case (SysClose 4) (snd r3))). set (r5 := accept_call sys_case 3 t4).
  exists (close_all sys_case [3; 5] (snd r5)). split; [|split; [vm_compute; reflexivity|split; [|vm_compute; tauto]]].
  - apply (sd_thrown _ _ _ 3 [5] t4); [|vm_compute; reflexivity].
    apply (sv_closed _ _ _ 3 [5] 4 []). apply (sv_nothing _ _ _ 3 [5; 4] (snd r2)); [|vm_compute; reflexivity].
    apply (sv_accepted _ _ _ 3 [4] (snd r1)); [|vm_compute; reflexivity]. apply (sv_accepted _ _ _ 3 [] (snd r0)); [|vm_compute; reflexivity].
    apply sv_set_up. vm_compute; reflexivity.
  - exists (firstn 15 (close_all sys_case [3; 5] (snd r5))), (skipn 15 (close_all sys_case [3; 5] (snd r5))).
    split; [now rewrite firstn_skipn|vm_compute; reflexivity].
Qed.
(** The port is taken: the socket is closed again. *)
Example C90_taken_case : let (res, tr) := set_up (obliging [(4%nat, 98)]) false 8080 [] in
  res = None /\ skipn 4 tr = [(SysBind 3 [0; 2; 31; 144; 0; 0; 0; 0; 0; 0; 0; 0; 0; 0; 0; 0], -1); (SysClose 3, 0)].
Proof. vm_compute. auto. Qed.
