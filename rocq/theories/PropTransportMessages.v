(** What the transports' messages tell (C116). *)
From Verif Require Import Base BaseLemmas Http Transport AccessLog Messages Tls SpecTls TlsProofs TransportMessages SpecTransportMessages.

(** ** C116.  A transport's failure is reported, and only that.

    Reading from a TCP socket: read(2) returned octets, or -1 and set errno; [why] is
    strerror's text for it. *)
Theorem C116_tcp_read : forall o errno why,
  tcp_read_messages (Got o) why = [] /\
  (errno = 11 -> tcp_read (Failed (-1) errno) = RdErr WantReadOrWrite /\ tcp_read_messages (Failed (-1) errno) why = []) /\
  (errno <> 11 -> tcp_read (Failed (-1) errno) = RdErr OtherError /\
     tcp_read_messages (Failed (-1) errno) why = [Msg LErr (str "TCP read error: " ++ why)]).
Proof.
  intros o errno why. split; [reflexivity|]. unfold tcp_read_messages, tcp_read, EAGAIN, EWOULDBLOCK. cbn [returned Z.ltb Z.compare].
  split; intros H; [subst; split; reflexivity|]. replace (errno =? 11) with false by (symmetry; now apply Z.eqb_neq). split; reflexivity.
Qed.
Print Assumptions C116_tcp_read.

(** Writing [size] octets to one: write(2) took [taken] of them, or failed. *)
Theorem C116_tcp_write : forall size taken errno why, 0 <= taken <= size ->
  (taken = size -> tcp_write size taken errno = WrOk size /\ tcp_write_messages size taken errno why = []) /\
  (taken < size -> tcp_write size taken errno = WrPartial taken /\
     tcp_write_messages size taken errno why =
       [Msg LErr (str "TCP partial write: wrote " ++ to_string taken ++ str " of " ++ to_string size ++ str " bytes")]) /\
  (errno = 11 -> tcp_write size (-1) errno = WrErr WantReadOrWrite /\ tcp_write_messages size (-1) errno why = []) /\
  (errno <> 11 -> tcp_write size (-1) errno = WrErr WriteError /\
     tcp_write_messages size (-1) errno why = [Msg LErr (str "TCP write error: " ++ why)]).
Proof.
  intros size taken errno why Ht. unfold tcp_write_messages, tcp_write, EAGAIN, EWOULDBLOCK.
  replace (taken <? 0) with false by (symmetry; apply Z.ltb_ge; lia). cbn [Z.ltb Z.compare].
  split; [intros ->; rewrite Z.eqb_refl; split; reflexivity|]. split; [intros H; replace (taken =? size) with false by (symmetry; apply Z.eqb_neq; lia); split; reflexivity|].
  split; intros H; [subst; split; reflexivity|]. replace (errno =? 11) with false by (symmetry; now apply Z.eqb_neq). split; reflexivity.
Qed.
Print Assumptions C116_tcp_write.

(** Shutting one down: shutdown(2) returns 0 or -1. *)
Theorem C116_tcp_shutdown : forall why,
  tcp_shutdown_messages 0 why = [] /\ tcp_shutdown_messages (-1) why = [Msg LErr (str "shutdown failed: " ++ why)].
Proof. split; reflexivity. Qed.
Print Assumptions C116_tcp_shutdown.

Lemma tls_read_fits n ret e : fits (n, RepRead (tls_read (Failed ret e))) (tls_read_messages ret e).
Proof.
  unfold tls_read, tls_read_messages, fits; cbn [returned snd].
  repeat match goal with |- context [if ?b then _ else _] => destruct b eqn:? end; cbn [fails]; eauto; discriminate.
Qed.
Lemma tls_got_fits n d : fits (n, RepRead (tls_read (Got d))) (tls_read_messages (lenZ d) 0).
Proof.
  unfold tls_read, tls_read_messages, fits; cbn [returned snd]. destruct (lenZ d <=? 0); cbn; eauto.
Qed.
Lemma tls_write_fits n size ret e : fits (n, RepWrite (tls_write size ret e)) (tls_write_messages size ret e).
Proof.
  unfold tls_write, tls_write_messages, fits; cbn [snd].
  repeat match goal with |- context [if ?b then _ else _] => destruct b eqn:? end; cbn [fails]; eauto; discriminate.
Qed.
Lemma handshake_fits describe n o q : fits (n, RepHandshake (fst (handshake o q))) (handshake_messages describe o).
Proof.
  unfold handshake, handshake_messages, failed_messages. destruct o as [|r| |e es|]; try destruct r; try (now left).
  - set (p := raise (raised (TlsFails e es)) []). destruct p as [|e0 p'] eqn:Ep; [now apply raise_some in Ep|].
    unfold SSL_get_error. destruct (err_lib e0 =? ERR_LIB_SYS); cbn; [eexists; reflexivity|].
    destruct (err_reason e0 =? SSL_R_UNEXPECTED_EOF_WHILE_READING); cbn; [right; split; reflexivity|eexists; reflexivity].
  - cbn. eexists. reflexivity.
Qed.
Lemma call_fits describe n c q : fits (n, fst (call c q)) (call_messages describe c q).
Proof.
  destruct c as [o|b o d r|b o z k r]; cbn [call call_messages].
  - pose proof (handshake_fits describe n o q) as H. now destruct (handshake o q).
  - unfold read, read_messages. destruct o; cbn [fst]; first [apply tls_got_fits|apply tls_read_fits].
  - unfold write, write_messages. destruct o; cbn [fst]; apply tls_write_fits.
Qed.

(** TLS: the reports of any calls, made for whichever connections, with the messages. *)
Theorem C116_tls : forall describe l, Forall2 fits (fst (calls l [])) (calls_messages describe l []).
Proof.
  intros describe l. generalize (@nil err). induction l as [|[n c] l IH]; intros q; cbn [calls calls_messages]; [constructor|].
  pose proof (call_fits describe n c q) as H. destruct (call c q) as [r q']. specialize (IH q'). destruct (calls l q'). cbn [fst snd] in *. now constructor.
Qed.
Print Assumptions C116_tls.

Lemma nth_messages describe l1 n c l2 q : nth_error (calls_messages describe (l1 ++ (n, c) :: l2) q) (length l1) = Some (call_messages describe c (snd (calls l1 q))).
Proof.
  revert q. induction l1 as [|[m d] l1 IH]; intros q; cbn [Datatypes.app calls_messages length nth_error calls snd]; [reflexivity|].
  rewrite IH. destruct (call d q) as [r q']. cbn [snd]. now destruct (calls l1 q').
Qed.
Lemma get_error_values q o : In (SSL_get_error q o) [1; 2; 3; 5; 6].
Proof. unfold SSL_get_error. destruct q as [|e q]; [destruct o as [|[]| | |]|destruct (err_lib e =? ERR_LIB_SYS)]; cbn; tauto. Qed.

(** The errors of reads and writes, whatever is left of the calls before. *)
Theorem C116_tls_texts : forall describe l1 n c l2, sane c ->
  exists r ms, nth_error (fst (calls (l1 ++ (n, c) :: l2) [])) (length l1) = Some (n, r) /\
    nth_error (calls_messages describe (l1 ++ (n, c) :: l2) []) (length l1) = Some ms /\
    match r with
    | RepRead (RdErr TransportProtocolError) => ms = [Msg LErr (str "TLS protocol error (SSL_ERROR_SSL)")]
    | RepRead (RdErr OtherError) => ms = [Msg LErr (str "TLS read error (SSL_ERROR_*): 5")]
    | RepWrite (WrErr TransportProtocolError) =>
        ms = [Msg LErr (str "TLS protocol error (SSL_ERROR_SSL)")] \/ ms = [Msg LErr (str "TLS protocol error (SSL_ERROR=5)")]
    | RepRead (RdErr WriteError) | RepWrite (WrErr WriteError) | RepWrite (WrErr OtherError) | RepWrite (WrPartial _) => False
    | RepHandshake _ => True
    | _ => ms = []
    end.
Proof.
  intros describe l1 n c l2 Hs. exists (fst (call c (snd (calls l1 [])))), (call_messages describe c (snd (calls l1 []))).
  split; [apply nth_report|]. split; [apply nth_messages|].
  generalize (snd (calls l1 [])). intros q. destruct c as [o|b o d r|b o z k r]; cbn [call call_messages sane] in *.
  - now destruct (handshake o q) as [[]].
  - unfold read, read_messages. destruct o as [|w| |e es|].
    { cbn [fst]. unfold tls_read, tls_read_messages. cbn [returned]. destruct d as [|x d]; [contradiction|].
      replace (lenZ (x :: d) <=? 0) with false by (symmetry; apply Z.leb_gt; rewrite lenZ_cons; pose proof (lenZ_nonneg d); lia). reflexivity. }
    all: cbn [fst]; unfold tls_read, tls_read_messages; cbn [returned];
      match goal with |- context [SSL_get_error ?p ?o] => pose proof (get_error_values p o) as He; generalize dependent (SSL_get_error p o) end;
      intros x He; replace (r <=? 0) with true by (symmetry; now apply Z.leb_le); cbn [In] in He;
      repeat destruct He as [<-|He]; try contradiction; cbn; auto.
  - unfold write, write_messages. destruct o as [|w| |e es|].
    { cbn [fst]. destruct Hs as [-> Hz]. unfold tls_write, tls_write_messages. replace (z <? 0) with false by (symmetry; apply Z.ltb_ge; lia).
      replace (to_int z) with z by (unfold to_int; rewrite Z.mod_small; lia). now rewrite Z.eqb_refl. }
    all: cbn [fst]; unfold tls_write, tls_write_messages;
      match goal with |- context [SSL_get_error ?p ?o] => pose proof (get_error_values p o) as He; generalize dependent (SSL_get_error p o) end;
      intros x He; replace (r <? 0) with true by (symmetry; now apply Z.ltb_lt); cbn [In] in He;
      repeat destruct He as [<-|He]; try contradiction; cbn; auto.
Qed.
Print Assumptions C116_tls_texts.

(** Should SSL_write ever take a part of what was offered, that is an error, with both
    numbers. *)
Theorem C116_tls_partial_write : forall describe b size taken ret q, 0 <= taken < size -> size < 2147483648 ->
  fst (call (CallWrite b TlsDone size taken ret) q) = RepWrite (WrPartial taken) /\
  call_messages describe (CallWrite b TlsDone size taken ret) q =
    [Msg LErr (str "SSL partial write: wrote " ++ to_string taken ++ str " of " ++ to_string size ++ str " bytes")].
Proof.
  intros describe b size taken ret q H1 H2. cbn [call call_messages write write_messages fst]. unfold tls_write, tls_write_messages.
  replace (taken <? 0) with false by (symmetry; apply Z.ltb_ge; lia).
  replace (to_int size) with size by (unfold to_int; rewrite Z.mod_small; lia).
  replace (taken =? size) with false by (symmetry; apply Z.eqb_neq; lia). split; reflexivity.
Qed.
Print Assumptions C116_tls_partial_write.

(** An error is reported for a reason of the connection's own.

    Missing: as for C88, it holds as long as nothing can be left of earlier failures. *)
Theorem C116_own_reason_partial : forall describe l1 n c l2 t, sane c -> clean l1 \/ empties c ->
  nth_error (calls_messages describe (l1 ++ (n, c) :: l2) []) (length l1) = Some [Msg LErr t] -> deserved c = Over.
Proof.
  intros describe l1 n c l2 t Hs Hc E. rewrite nth_messages in E. injection E as E.
  assert (Hq : snd (calls l1 []) = [] \/ empties c) by (destruct Hc as [Hc|Hc]; [left; now apply clean_queue|now right]).
  rewrite <- (call_right c _ Hs Hq). pose proof (call_fits describe n c (snd (calls l1 []))) as F. rewrite E in F. unfold fits in F. cbn [snd] in F.
  destruct (fst (call c (snd (calls l1 [])))) as [[|[]]|[|[]]|[| |[]]]; try reflexivity; cbn [fails] in F;
    destruct F as [F|[_ F]]; discriminate.
Qed.
Print Assumptions C116_own_reason_partial.

(** Otherwise a connection that only has to wait is reported as having violated the protocol. *)
Theorem C116_own_reason_refuted : forall describe l1 n c l2 b, sane c -> left_over l1 -> proper l1 -> ~ empties c -> own_outcome c = TlsWants b ->
  deserved c = Wait /\
  nth_error (calls_messages describe (l1 ++ (n, c) :: l2) []) (length l1) = Some [Msg LErr (str "TLS protocol error (SSL_ERROR_SSL)")].
Proof.
  intros describe l1 n c l2 b Hs Hl Hp He Ho. split; [unfold deserved; now rewrite Ho|]. rewrite nth_messages. f_equal.
  assert (Hq : snd (calls l1 []) <> []) by now apply left_queue.
  assert (Hl1 : (length (snd (calls l1 [])) <= 15)%nat) by (apply calls_bounded; cbn; lia).
  assert (Hy : forall e, In e (snd (calls l1 [])) -> err_lib e <> ERR_LIB_SYS).
  { intros e Hi. destruct (calls_origin _ _ _ Hi) as [[]|(x & e0 & es & H1 & H2 & H3)]. exact (Hp x e0 es e H1 H2 H3). }
  destruct (snd (calls l1 [])) as [|e q]; [contradiction|].
  assert (Hy1 : err_lib e =? ERR_LIB_SYS = false) by (apply Z.eqb_neq, Hy; now left).
  destruct c as [o|cl o d r|cl o z k r]; cbn [call_messages sane empties own_outcome] in *; [now elim He|..]; subst o; destruct cl; try easy.
  - unfold read_messages. cbn [raised]. rewrite raise_nil by exact Hl1. unfold SSL_get_error. rewrite Hy1.
    unfold tls_read_messages. now replace (r <=? 0) with true by (symmetry; now apply Z.leb_le).
  - unfold write_messages. cbn [raised]. rewrite raise_nil by exact Hl1. unfold SSL_get_error. rewrite Hy1.
    unfold tls_write_messages. now replace (r <? 0) with true by (symmetry; now apply Z.ltb_lt).
Qed.
Print Assumptions C116_own_reason_refuted.

(** *** The reason of a failed handshake

    The message tells the error because of which the handshake failed: SSL_accept raised [e]
    first and then [es] (at most 15 in all, for which there is room).

    Missing: only for errors of the system. *)
Theorem C116_handshake_reason_partial : forall describe e es, err_lib e = 2 -> (length es <= 14)%nat ->
  tells_reason describe (str "5") e (handshake_messages describe (TlsFails e es)).
Proof.
  intros describe e es He Hl. unfold handshake_messages, tells_reason. cbn [raised]. unfold raise. cbn [Datatypes.app length].
  replace (S (length es) - 15)%nat with O by lia. cbn [skipn SSL_get_error]. unfold ERR_LIB_SYS. rewrite He. reflexivity.
Qed.
Print Assumptions C116_handshake_reason_partial.
(** An error of the TLS library is taken from the queue to look at it, and then the next one
    is described.  There usually is none: whatever went wrong, the message is the same. *)
Theorem C116_handshake_reason_refuted : forall describe e es, err_lib e <> 2 -> err_reason e <> 294 -> (length es <= 14)%nat ->
  tells_reason describe (str "1") (match es with [] => Err 0 0 | e' :: _ => e' end) (handshake_messages describe (TlsFails e es)).
Proof.
  intros describe e es He Hr Hl. unfold handshake_messages, tells_reason. cbn [raised]. unfold raise. cbn [Datatypes.app length].
  replace (S (length es) - 15)%nat with O by lia. cbn [skipn SSL_get_error]. unfold ERR_LIB_SYS.
  replace (err_lib e =? 2) with false by (symmetry; now apply Z.eqb_neq). cbn [SSL_ERROR_SSL Z.eqb orb ERR_get_error Pos.eqb SSL_ERROR_ZERO_RETURN SSL_ERROR_WANT_READ SSL_ERROR_WANT_WRITE].
  unfold SSL_R_UNEXPECTED_EOF_WHILE_READING. replace (err_reason e =? 294) with false by (symmetry; now apply Z.eqb_neq).
  unfold failed_messages. now destruct es.
Qed.
Print Assumptions C116_handshake_reason_refuted.
Theorem C116_handshake_same_message : forall describe e e', err_lib e <> 2 -> err_lib e' <> 2 -> err_reason e <> 294 -> err_reason e' <> 294 ->
  handshake_messages describe (TlsFails e []) = handshake_messages describe (TlsFails e' []).
Proof.
  intros describe e e' H1 H2 H3 H4. pose proof (C116_handshake_reason_refuted describe e [] H1 H3 ltac:(cbn; lia)) as A.
  pose proof (C116_handshake_reason_refuted describe e' [] H2 H4 ltac:(cbn; lia)) as B. unfold tells_reason in *. now rewrite A, B.
Qed.
Print Assumptions C116_handshake_same_message.

(** *** Cases *)
(** OpenSSL's texts of two errors: the client has no version in common; none. *)
Definition w_describe (e : err) : bytes :=
  if (err_lib e =? 20) && (err_reason e =? 258) then str "error:0A000102:SSL routines::unsupported protocol"
  else if (err_lib e =? 0) && (err_reason e =? 0) then str "error:00000000:lib(0)::reason(0)" else [].
Example C116_case :
  tcp_read_messages (Failed (-1) 104) (str "Connection reset by peer") = [Msg LErr (str "TCP read error: Connection reset by peer")] /\
  tcp_write_messages 65536 4096 0 [] = [Msg LErr (str "TCP partial write: wrote 4096 of 65536 bytes")] /\
  handshake_messages w_describe (TlsFails (Err 20 258) []) =
    [Msg LErr (str "TLS handshake failed: (1) error:00000000:lib(0)::reason(0)")] /\
  (let l := [(4%nat, CallRead false (TlsFails (Err 20 294) []) [] (-1)); (5%nat, CallRead false (TlsWants true) [] (-1))] in
   calls_messages w_describe l [] = [[Msg LErr (str "TLS protocol error (SSL_ERROR_SSL)")]; [Msg LErr (str "TLS protocol error (SSL_ERROR_SSL)")]] /\
   deserved (snd (nth 1 l (0%nat, CallHandshake TlsDone))) = Wait) /\
  calls_messages w_describe [(4%nat, CallHandshake (TlsFails (Err 20 294) [])); (5%nat, CallRead false (TlsWants true) [] (-1));
      (5%nat, CallRead false TlsBroken [] 0); (6%nat, CallWrite false TlsNotify 10 0 (-1))] [] =
    [[Msg LInfo (str "client disconnected during handshake (EOF)")]; []; [Msg LErr (str "TLS read error (SSL_ERROR_*): 5")]; []].
Proof. repeat split; reflexivity. Qed.
