(** C127: at level trace the console is a record of what the transports report. *)
From Verif Require Import Base BaseLemmas Http Transport SpecConn AccessLog Messages Tls SpecTls TransportMessages TransportTrace SpecDebug SpecTransportTrace TransportTraceProofs Alpn PropAlpn.

(** The messages above level debug are those of C116. *)
Theorem C127_above : forall describe c q r size ret errno why,
  louder (call_trace describe c q) = call_messages describe c q /\
  louder (tcp_read_trace r why) = tcp_read_messages r why /\
  louder (tcp_write_trace size ret errno why) = tcp_write_messages size ret errno why /\
  louder (tcp_shutdown_trace ret why) = tcp_shutdown_messages ret why.
Proof.
  intros describe c q r size ret errno why. split; [|split; [|split]].
  - destruct c as [o|clears o data ret1|clears o size1 taken ret1]; cbn [call_trace call_messages].
    + unfold handshake_trace, handshake_messages, failed_messages. destruct o as [|[]| | |]; try reflexivity. set (q1 := raise _ _).
      destruct (SSL_get_error q1 _ =? SSL_ERROR_ZERO_RETURN); [reflexivity|]. cbn [orb]. destruct (_ || _); [reflexivity|].
      destruct (_ =? SSL_ERROR_SSL); [|reflexivity]. destruct (ERR_get_error q1) as [e1 q2]. now destruct (_ =? _).
    + unfold read_trace, read_messages. destruct o; unfold tls_read_trace, tls_read_messages; ifs; reflexivity.
    + unfold write_trace, write_messages. destruct o; unfold tls_write_trace, tls_write_messages; ifs; reflexivity.
  - destruct r as [o|ret1 e]; unfold tcp_read_trace, tcp_read_messages; cbn [returned]; [pose proof (lenZ_nonneg o)|]; ifs; try reflexivity; lia.
  - unfold tcp_write_trace, tcp_write_messages. ifs; reflexivity.
  - unfold tcp_shutdown_trace, tcp_shutdown_messages. now destruct (ret =? -1).
Qed.
Print Assumptions C127_above.

(** Whatever calls are made, in whatever order and for whatever connections, the messages are
    those that go with what is reported. *)
Definition said_at_hello (m : message) : Prop := exists names client, offer names client /\ alpn_trace client = Ret [m].
Theorem C127_tls : forall describe l,
  Forall (fun x => sane (snd (snd x)) /\ Forall said_at_hello (fst (snd x))) l ->
  Forall2 recorded (map snd (fst (calls (map (fun x => (fst x, snd (snd x))) l) []))) (calls_trace describe l []).
Proof.
  intros describe l. generalize (@nil err). induction l as [|[n [h c]] l IH]; intros q H; cbn [calls calls_trace map fst snd]; [constructor|].
  apply Forall_cons_iff in H as [[H1 H2] H]. cbn [fst snd] in *. pose proof (call_record describe c q H1) as R. destruct (call c q) as [r q']. specialize (IH q' H).
  destruct (calls _ q'). cbn [fst snd map] in *. constructor; [|exact IH]. exists h, (call_trace describe c q). split; [reflexivity|]. split; [|exact R].
  revert H2. apply Forall_impl. intros m (names & client & Ho & E). destruct (C68_alpn names client Ho) as (b & Eb & En & _).
  unfold alpn_trace in E. rewrite Eb in E. cbn [obind] in E. rewrite En in E. injection E as <-. destruct b; cbn; auto.
Qed.
Print Assumptions C127_tls.
Theorem C127_tcp : forall l, Forall (fun c => forall ret e why, c = TcpRead (Failed ret e) why -> ret < 0) l ->
  Forall2 record (map tcp_report l) (map tcp_trace l).
Proof.
  induction 1 as [|c l H _ IH]; [constructor|]. constructor; [|exact IH]. destruct c as [r why|size ret e why]; cbn.
  - apply tcp_read_record. intros ret e ->. now apply (H ret e why).
  - apply tcp_write_record.
Qed.
Print Assumptions C127_tcp.

(** So whoever reads the messages knows what was reported, with the number of octets, but for
    successful handshakes: the same messages mean the same reports, over TLS or not. *)
Theorem C127_read_back : forall rs mss rs' mss',
  Forall2 recorded rs mss -> Forall2 recorded rs' mss' -> concat mss = concat mss' ->
  Forall2 alike (filter mentioned rs) (filter mentioned rs').
Proof. exact recorded_alike. Qed.
Print Assumptions C127_read_back.

(** The message about the protocol says whether the client offers HTTP/2. *)
Theorem C127_protocol : forall names client, offer names client ->
  (In (str "h2") names -> alpn_trace client = Ret [Msg LDebug (str "ALPN negotiated: h2")]) /\
  (~ In (str "h2") names -> alpn_trace client = Ret [Msg LDebug (str "ALPN negotiation failed, using default: h2")]).
Proof.
  intros names client H. destruct (C68_alpn names client H) as (b & Eb & En & Hb). unfold alpn_trace. rewrite Eb. cbn [obind]. rewrite En.
  split; intros K; [rewrite (proj2 Hb K); reflexivity|]. destruct b; [now destruct K; apply Hb|reflexivity].
Qed.
Print Assumptions C127_protocol.

(** A browser's handshake, a request and the answer; a client that is gone; one that speaks
    something else. *)
Definition some_calls : list (nat * (list message * tls_call)) :=
  [(4%nat, ([Msg LDebug (str "ALPN negotiated: h2")], CallHandshake (TlsWants true))); (4%nat, ([], CallHandshake TlsDone)); (4%nat, ([], CallRead false TlsDone (repeat 0 57) 0));
   (4%nat, ([], CallWrite false TlsDone 27 27 0)); (4%nat, ([], CallRead false (TlsWants true) [] (-1))); (5%nat, ([], CallHandshake TlsNotify));
   (4%nat, ([], CallRead false TlsNotify [] 0)); (6%nat, ([], CallRead false (TlsFails (Err 20 258) []) [] (-1)))].
Example C127_case : Forall (fun x => sane (snd (snd x)) /\ Forall said_at_hello (fst (snd x))) some_calls /\
  concat (calls_trace (fun _ => []) some_calls []) =
  [Msg LDebug (str "ALPN negotiated: h2"); Msg LTrace (str "TLS handshake want read/write");
   Msg LTrace (str "reading from SSL"); Msg LTrace (str "successfully read 57 bytes from SSL");
   Msg LTrace (str "successfully wrote 27 bytes to SSL");
   Msg LTrace (str "reading from SSL"); Msg LTrace (str "SSL want read");
   Msg LDebug (str "TLS connection closed by peer before handshake (likely health check)");
   Msg LTrace (str "reading from SSL"); Msg LDebug (str "TLS connection closed");
   Msg LTrace (str "reading from SSL"); Msg LErr (str "TLS protocol error (SSL_ERROR_SSL)")] /\
  concat (map tcp_trace [TcpRead (Got (repeat 0 57)) []; TcpWrite 27 27 0 []; TcpRead (Failed (-1) 11) []; TcpWrite 27 20 0 []; TcpRead (Got []) []]) =
  [Msg LTrace (str "reading from TCP socket"); Msg LTrace (str "successfully read 57 bytes from TCP socket"); Msg LTrace (str "successfully wrote 27 bytes to TCP socket");
   Msg LTrace (str "reading from TCP socket"); Msg LTrace (str "TCP want read"); Msg LErr (str "TCP partial write: wrote 20 of 27 bytes");
   Msg LTrace (str "reading from TCP socket"); Msg LDebug (str "TCP connection closed")].
Proof.
  split; [|split; vm_compute; reflexivity]. repeat constructor; cbn; try easy; try lia. exists [str "h2"], [2; 104; 50]. split; [|reflexivity].
  unfold offer. repeat split; try easy. repeat constructor; vm_compute; easy.
Qed.
