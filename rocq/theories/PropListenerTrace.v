(** The listener's messages and exceptions (C133). *)
From Verif Require Import Base BaseLemmas SpecConn ConnTerm AccessLog Messages HpackTrace ServerTrace App Poller Listener SpecListener ListenerProofs PropListener
  ProcCtrl StartMessages PropStart ServerProofs ListenerTrace ListenerTraceProofs SpecListenerTrace.

(** ** C133.  Why a server cannot listen, or can no longer accept, is told by the exception that
    ends it and by the last line of the program; which sockets are closed is told by messages.

    [said_served … port t tr ms]: the whole use of the listener made the calls [tr] and wrote
    the messages [ms]; it was ended by an exception with text [t], or (None) by stop.  It is
    what Listener.v says, with texts: *)
Theorem C133_calls : forall system little reason port t tr ms,
  said_served system little reason port t tr ms ->
  served system little port (match t with Some _ => true | None => false end) tr.
Proof. intros system little reason port t tr ms. apply same_served. Qed.
Print Assumptions C133_calls.

(** The exception names the call that failed, with the system's reason; no call failed before
    it in the same function, and after it sockets are closed, no more. *)
Theorem C133_reason : forall system little reason port t tr ms, reliable little system ->
  said_served system little reason port (Some t) tr ms ->
  exists tr0 l, tr = tr0 ++ l /\ blames system reason t tr0 l.
Proof. intros system little reason port t tr ms Hr H. exact (proj2 (served_told _ _ _ Hr _ _ _ _ H) t eq_refl). Qed.
Print Assumptions C133_reason.

(** The last line of the program tells it. *)
Theorem C133_fatal : forall system little reason port t tr ms what telemetry v version linux set inherited log_path f o l a during,
  reliable little system -> said_served system little reason port (Some t) tr ms ->
  severity v <= 5 -> server_reason what o l (to_server_config a) = None ->
  exists before n c tr1 tr2,
    main_messages what telemetry v version linux set inherited log_path f o l a during (Throws t) =
      before ++ [Msg LCritical (str "fatal error: " ++ n ++ str ": " ++ reason (snd (system tr1 c)))] /\
    named c n /\ tr = tr1 ++ (c, fst (system tr1 c)) :: tr2 /\ fst (system tr1 c) < 0 /\ Forall is_close tr2.
Proof.
  intros system little reason port t tr ms what telemetry v version linux set inherited log_path f o l a during Hr H Hv Hs.
  destruct (C133_reason _ _ _ _ _ _ _ Hr H) as (tr0 & l0 & -> & l1 & c & r & n & l2 & -> & -> & Hn & Nm & -> & _ & Hc).
  unfold main_messages, try_messages. rewrite Hs. eexists. exists n, c, (tr0 ++ l1), l2. split; [|split; [exact Nm|split; [now rewrite <- app_assoc|now split]]].
  rewrite !app_assoc. unfold let_through. rewrite (filter_app _ _ [fatal _]), app_assoc. f_equal.
  cbn [filter fatal m_level severity]. replace (severity v <=? 5) with true by (symmetry; now apply Z.leb_le). unfold fatal. now rewrite <- !app_assoc.
Qed.
Print Assumptions C133_fatal.

(** Whatever is written goes with a call: a socket closed, or the option "no delay" refused
    for a client; and each of these is written. *)
Theorem C133_told : forall system little reason port t tr ms, reliable little system ->
  said_served system little reason port t tr ms -> told system reason [] tr ms.
Proof. intros system little reason port t tr ms Hr H. exact (proj1 (served_told _ _ _ Hr _ _ _ _ H)). Qed.
Print Assumptions C133_told.

(** So each socket made is told to be closed, once each time it is made. *)
Theorem C133_balance : forall system little reason port t tr ms fd n, reliable little system -> 0 <= port < 65536 ->
  said_served system little reason port t tr ms -> decimal n fd -> 0 <= fd ->
  count (tells_closing n) ms = count (makes fd) tr.
Proof.
  intros system little reason port t tr ms fd n Hr Hp H Hn Hf. pose proof (C133_told _ _ _ _ _ _ _ Hr H) as T.
  rewrite (told_closings _ _ _ _ _ T n fd Hn Hf). apply C133_calls in H.
  destruct (C90_served _ _ _ _ _ Hr Hp H) as (P & O & _). pose proof (balanced _ _ _ Hr _ _ _ T P fd) as B.
  cbn [Datatypes.app] in B. unfold open_now in B. rewrite (O fd) in B. cbn in B. lia.
Qed.
Print Assumptions C133_balance.

(** Setting up says nothing if it succeeds, and no call fails; otherwise the exception tells
    the only call that failed, and above level trace nothing is written. *)
Theorem C133_set_up : forall system little reason port, reliable little system ->
  match said_set_up system little reason port [] with
  | (inl fd, tr, ms) => 0 <= fd /\ ms = [] /\ ~ failed tr
  | (inr t, tr, ms) => blames system reason t [] tr /\ told system reason [] tr ms /\ Forall (fun m => m_level m = LTrace) ms
  end.
Proof.
  intros system little reason port Hr. pose proof (good_set_up little system reason Hr port []) as G.
  destruct (said_set_up system little reason port []) as [[[fd|t] tr] ms]; destruct G as (l & -> & T & K); cbn [Datatypes.app].
  - destruct K as [F K]. split; [exact K|]. split; [exact (told_none _ _ _ _ _ T F)|]. intros (c & r & Hi & Hn). specialize (F c r Hi). lia.
  - split; [exact K|]. split; [exact T|]. eapply told_trace; [exact T|]. exact (blames_delay _ _ _ _ _ K).
Qed.
Print Assumptions C133_set_up.

(** The run of C90_case: TCP_NODELAY is refused for the second client; the third client's socket
    cannot be made non-blocking. *)
Definition texts (e : Z) : bytes := if e =? 22 then str "Invalid argument" else if e =? 98 then str "Address already in use" else str "Protocol not available".
Example C133_case : exists tr, said_served sys_case true texts 8080 (Some (str "fcntl F_SETFL: Invalid argument")) tr
  [Msg LWarn (str "failed to set TCP_NODELAY on client fd: Protocol not available"); Msg LTrace (str "closing socket fd 4");
   Msg LTrace (str "closing socket fd 6"); Msg LTrace (str "closing socket fd 3"); Msg LTrace (str "closing socket fd 5")].
Proof.
  set (r0 := said_set_up sys_case true texts 8080 []). set (r1 := said_accept sys_case texts 3 (snd (fst r0))). set (r2 := said_accept sys_case texts 3 (snd (fst r1))).
  set (r3 := said_accept sys_case texts 3 (snd (fst r2))). set (r4 := sclose sys_case 4 (snd (fst r3))). set (r5 := said_accept sys_case texts 3 (fst r4)).
  assert (S : said_serving sys_case true texts 8080 3 [5] (fst r4) (((([] ++ snd r1) ++ snd r2) ++ snd r3) ++ snd r4)).
  { apply (ss_closed _ _ _ _ 3 [5] 4 []). apply (ss_nothing _ _ _ _ 3 [5; 4] (snd (fst r2))); [|vm_compute; reflexivity].
    apply (ss_accepted _ _ _ _ 3 [4] (snd (fst r1))); [|vm_compute; reflexivity]. apply (ss_accepted _ _ _ _ 3 [] (snd (fst r0))); [|vm_compute; reflexivity].
    apply ss_set_up. vm_compute; reflexivity. }
  assert (E : said_accept sys_case texts 3 (fst r4) = (inr (str "fcntl F_SETFL: Invalid argument"), snd (fst r5), snd r5)) by (vm_compute; reflexivity).
  pose proof (st_thrown _ _ _ _ 3 [5] _ _ _ _ _ S E) as K. eexists. vm_compute in K |- *. exact K.
Qed.
Example C133_taken_case : let '(t, tr, ms) := said_set_up (obliging [(4%nat, 98)]) false texts 8080 [] in
  t = inr (str "bind: Address already in use") /\ ms = [Msg LTrace (str "closing socket fd 3")] /\ lenZ tr = 6.
Proof. vm_compute. auto. Qed.
