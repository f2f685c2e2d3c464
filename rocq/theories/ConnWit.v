(** Concrete connections: cases for the theorems of PropConn.v, counterexamples. *)
From Verif Require Import Base BaseLemmas SpecFrames SpecHpack SpecHpackEnc Huffman DynTable HpackDec HpackEnc
  Frames FramesProofs Http Conn SpecConn ConnLemmas ConnRule ConnBasic ConnTerm ConnRun ConnSpec ConnMain ConnDet ConnMore.

(** Client octets. *)
Definition w_settings : bytes := [0; 0; 0; 4; 0; 0; 0; 0; 0].
Definition w_get : bytes := [0; 0; 2; 1; 5; 0; 0; 0; 1; 130; 132].   (* GET / on stream 1 *)
Definition w_ping : bytes := [0; 0; 8; 6; 0; 0; 0; 0; 0; 1; 2; 3; 4; 5; 6; 7; 8].
Definition w_hello : bytes := rfc_preface ++ w_settings.

(** An application that always says "hi". *)
Definition hi (_ : request) (w : unit) : unit * app_answer := (w, Answers (Response 200 [] [104; 105])).
Definition get_root : request :=
  Request (str "GET") (str "/") [Hdr (str ":method") (str "GET"); Hdr (str ":path") (str "/")].
(** An application that always fails. *)
Definition failing (_ : request) (w : unit) : unit * app_answer := (w, Fails).

(** The transport: it accepts everything; or it says "would block" to reads in between. *)
Definition accept : Z * wr_result := (0, WrOk 100000).
Definition block_read : Z * rd_result := (0, RdErr WantReadOrWrite).
Definition closed : Z * rd_result := (0, RdErr ConnectionClosed).
Definition octets (x : bytes) : Z * rd_result := (0, RdData x).
Definition deliver (rd : list (Z * rd_result)) : scripts := Scripts [(0, HsOk)] rd [accept; accept; accept; accept].

Lemma scripts_okb s : forallb (fun x => match snd x with
    | RdData o => forallb (fun b => (0 <=? b) && (b <? 256)) o && (1 <=? lenZ o) && (lenZ o <=? TEMP_READ_BUFFER_SIZE)
    | RdErr _ => true end) (sc_rd s) = true -> scripts_ok s.
Proof.
  intros H. apply Forall_forall. intros x Hx. rewrite forallb_forall in H. specialize (H x Hx).
  destruct (snd x) as [o|e]; auto. apply andb_true_iff in H as [H H3]. apply andb_true_iff in H as [H1 H2].
  split; [|lia]. apply Forall_forall. intros b Hb. rewrite forallb_forall in H1. specialize (H1 b Hb). unfold is_byte. lia.
Qed.

Section Runs.
  Context {W : Type} (app : request -> W -> W * app_answer) (cs : bool) (T : tree) (others : W -> W -> Prop) (t0 : Z) (w0 : W).
  (** The connection is processed once per element of [ss]. *)
  Fixpoint runs (ss : list scripts) (r : option result) (c : conn) (tr : trace) (w : W)
      : out (option result * conn * trace * W) :=
    match ss with
    | [] => Ret (r, c, tr, w)
    | s :: ss =>
      match r with
      | Some DiscardConnection => Undef
      | _ => let! (r', c', ev, w') := process W app cs T s c w in runs ss (Some r') c' (tr ++ ev) w'
      end
    end.
  Lemma runs_session (A : scripts -> Prop) ss : forall r c tr w r' c' tr' w', Forall scripts_ok ss -> Forall A ss ->
    session W app cs T others t0 w0 A r c tr w -> runs ss r c tr w = Ret (r', c', tr', w') ->
    session W app cs T others t0 w0 A r' c' tr' w'.
  Proof.
    induction ss as [|s ss IH]; intros r c tr w r' c' tr' w' H1 H2 HS E; cbn [runs] in E.
    - injection E as <- <- <- <-. exact HS.
    - apply Forall_cons_iff in H1 as [H1 H1']. apply Forall_cons_iff in H2 as [H2 H2'].
      assert (Hr : r <> Some DiscardConnection) by (intros ->; discriminate).
      destruct (process W app cs T s c w) as [[[[r1 c1] ev1] w1]| | |] eqn:Ep;
        cbn [obind] in E; destruct r as [[]|]; try discriminate; try congruence;
        (eapply IH; [exact H1'|exact H2'| |exact E]);
        (eapply session_process; [exact HS|exact Hr|exact H1|exact H2|exact Ep]).
  Qed.
  Lemma by_run (A : scripts -> Prop) ss r (Phi : conn -> trace -> W -> Prop) : Forall scripts_ok ss -> Forall A ss ->
    match runs ss None (fresh_conn t0) [] w0 with Ret (r', c, tr, w) => r' = r /\ Phi c tr w | _ => False end ->
    exists c tr w, session W app cs T others t0 w0 A r c tr w /\ Phi c tr w.
  Proof.
    intros H1 H2. destruct (runs ss None (fresh_conn t0) [] w0) as [[[[r' c] tr] w]| | |] eqn:E; try easy.
    intros [-> HP]. exists c, tr, w. split; [|exact HP]. eapply runs_session; eauto. constructor.
  Qed.
End Runs.

Ltac scripts_ok := repeat (apply Forall_cons; [apply scripts_okb; vm_compute; reflexivity|]); apply Forall_nil.

(** One whole exchange. *)
Lemma exchange T cs : exists c tr w, session unit hi cs T eq 0 tt any (Some WantRead) c tr w /\
  received tr = w_hello ++ w_get /\ requests tr = [(get_root, Some (Response 200 [] [104; 105]))] /\
  logged tr = [(rq_headers get_root, 200, 2)] /\ delivered tr = queued tr /\ lenZ (delivered tr) = 80 /\
  lenZ (filter is_write tr) = 2.
Proof.
  apply (by_run hi cs T eq 0 tt any [deliver [octets (w_hello ++ w_get)]]); [scripts_ok|apply Forall_any|].
  destruct cs; vm_compute; repeat split.
Qed.

(** What the server sends: its SETTINGS, SETTINGS ACK, GOAWAY. *)
Definition o_settings : bytes :=
  [0; 0; 18; 4; 0; 0; 0; 0; 0; 0; 3; 0; 0; 0; 100; 0; 4; 0; 0; 255; 255; 0; 5; 0; 0; 64; 0].
Definition o_ack : bytes := [0; 0; 0; 4; 1; 0; 0; 0; 0].
Definition o_goaway : bytes := [0; 0; 8; 7; 0; 0; 0; 0; 0; 0; 0; 0; 1; 0; 0; 0; 1].

(** A write of which only five octets are taken: they are sent twice. *)
Lemma partial_write_repeats T cs : exists c tr w, session unit hi cs T eq 0 tt any (Some DiscardConnection) c tr w /\
  queued tr = o_settings ++ o_goaway /\ delivered tr = firstn 5 o_settings ++ o_settings.
Proof.
  apply (by_run hi cs T eq 0 tt any [Scripts [(0, HsOk)] [octets rfc_preface] []; Scripts [] [] [(0, WrPartial 5)];
                                     Scripts [] [] [accept]]); [scripts_ok|apply Forall_any|].
  destruct cs; vm_compute; repeat split.
Qed.

(** The preface alone: the SETTINGS frame stays in the buffer. *)
Lemma settings_left_unsent T cs : exists c tr w, session unit hi cs T eq 0 tt any (Some WantRead) c tr w /\
  received tr = rfc_preface /\ queued tr = o_settings /\ delivered tr = [] /\
  Forall (fun e => is_write e = false) tr.
Proof.
  apply (by_run hi cs T eq 0 tt any [deliver [octets rfc_preface]]); [scripts_ok|apply Forall_any|].
  destruct cs; vm_compute; repeat split; repeat constructor.
Qed.

(** An oversized frame header: GOAWAY is queued and dropped with the connection. *)
Lemma goaway_never_sent T cs : exists c tr w, session unit hi cs T eq 0 tt any (Some DiscardConnection) c tr w /\
  fault_free tr /\ received tr = w_hello ++ [0; 64; 1; 0; 0; 0; 0; 0; 1] /\
  queued tr = o_settings ++ o_ack ++ o_goaway /\ delivered tr = o_settings ++ o_ack.
Proof.
  apply (by_run hi cs T eq 0 tt any [deliver [octets (w_hello ++ [0; 64; 1; 0; 0; 0; 0; 0; 1])]]);
    [scripts_ok|apply Forall_any|].
  destruct cs; vm_compute; repeat split; repeat constructor; discriminate.
Qed.

(** A request followed by the end of the stream: no handler runs. *)
Lemma closing_client_ignored T cs : exists c tr w, session unit hi cs T eq 0 tt any (Some DiscardConnection) c tr w /\
  received tr = w_hello ++ w_get /\ requests tr = [] /\ delivered tr = [].
Proof.
  apply (by_run hi cs T eq 0 tt any [deliver [octets (w_hello ++ w_get); closed]]); [scripts_ok|apply Forall_any|].
  destruct cs; vm_compute; repeat split.
Qed.

(** PING. *)
Lemma ping_ignored T cs : exists c tr w, session unit hi cs T eq 0 tt any (Some WantRead) c tr w /\
  received tr = w_hello ++ w_ping /\ queued tr = o_settings ++ o_ack.
Proof.
  apply (by_run hi cs T eq 0 tt any [deliver [octets (w_hello ++ w_ping)]]); [scripts_ok|apply Forall_any|].
  destruct cs; vm_compute; repeat split.
Qed.

(** The request of [exchange], its block split after one octet. *)
Definition w_get_split : bytes := [0; 0; 1; 1; 1; 0; 0; 0; 1; 130; 0; 0; 1; 9; 4; 0; 0; 0; 1; 132].
Lemma split_block_refused T cs : exists c tr w, session unit hi cs T eq 0 tt any (Some WantRead) c tr w /\
  received tr = w_hello ++ w_get_split /\ requests tr = [] /\ logged tr = [([Hdr (str ":method") (str "GET")], 400, 0)].
Proof.
  apply (by_run hi cs T eq 0 tt any [deliver [octets (w_hello ++ w_get_split)]]); [scripts_ok|apply Forall_any|].
  destruct cs; vm_compute; repeat split.
Qed.

(** The client allows no DATA at all (SETTINGS_INITIAL_WINDOW_SIZE 0); it gets some. *)
Definition w_no_data : bytes := [0; 0; 6; 4; 0; 0; 0; 0; 0; 0; 4; 0; 0; 0; 0].
Lemma window_ignored T cs : exists c tr w x, session unit hi cs T eq 0 tt any (Some WantRead) c tr w /\
  received tr = rfc_preface ++ w_no_data ++ w_get /\ delivered tr = x ++ [0; 0; 2; 0; 1; 0; 0; 0; 1; 104; 105].
Proof.
  cut (exists c tr w, session unit hi cs T eq 0 tt any (Some WantRead) c tr w /\
         received tr = rfc_preface ++ w_no_data ++ w_get /\
         exists x, delivered tr = x ++ [0; 0; 2; 0; 1; 0; 0; 0; 1; 104; 105]).
  { intros (c & tr & w & H & Hr & x & Hx). eauto 10. }
  apply (by_run hi cs T eq 0 tt any [deliver [octets (rfc_preface ++ w_no_data ++ w_get)]]); [scripts_ok|apply Forall_any|].
  destruct cs; vm_compute; (split; [reflexivity|]); (split; [reflexivity|]);
    match goal with |- exists x, ?l = _ => exists (firstn (length l - 11) l) end; reflexivity.
Qed.

(** Undefined behaviour. *)
Lemma short_window_update T cs :
  process unit hi cs T (deliver [octets (w_hello ++ [0; 0; 3; 8; 0; 0; 0; 0; 1; 0; 0; 1])]) (fresh_conn 0) tt = Undef.
Proof. destruct cs; vm_compute; reflexivity. Qed.
Lemma short_priority T cs :
  process unit hi cs T (deliver [octets (w_hello ++ [0; 0; 4; 1; 37; 0; 0; 0; 1; 0; 0; 0; 0])]) (fresh_conn 0) tt = Undef.
Proof. destruct cs; vm_compute; reflexivity. Qed.
Lemma truncated_index T cs :
  process unit hi cs T (deliver [octets (w_hello ++ [0; 0; 1; 1; 5; 0; 0; 0; 1; 255])]) (fresh_conn 0) tt = Undef.
Proof. destruct cs; vm_compute; reflexivity. Qed.

(** ** Any number of frames in one call *)
Definition rd_many (n : nat) : list (Z * rd_result) := concat (repeat [octets w_settings; block_read] n).

Lemma flush_all b d e l wr : b <> [] -> lenZ b <= 100000 ->
  flush_write_buffer (accept :: wr) (Conn AwaitingFrame [] b d e l) =
  (Conn AwaitingFrame [] [] d e 0, [EvWrite 0 b b (Val (lenZ b))], wr).
Proof.
  intros Hb Hl. unfold flush_write_buffer, accept. cbn [c_wbuf c_state c_rbuf c_dec c_enc].
  destruct b as [|x b]; [easy|]. set (y := x :: b) in *. pose proof (lenZ_nonneg y).
  replace (Z.max 0 (Z.min 100000 (lenZ y))) with (lenZ y) by lia.
  unfold lenZ. rewrite Nat2Z.id, skipn_all, firstn_all. reflexivity.
Qed.

Lemma dispatch_settings cs T d e : dispatch unit hi cs T (Conn AwaitingFrame w_settings [] d e 0) tt =
  Ret (Continue, Conn AwaitingFrame [] o_ack d e 0, [EvQueue o_ack], tt).
Proof. reflexivity. Qed.

Lemma loop_many T cs n : forall fuel b d e l, (n < fuel)%nat -> b <> [] -> lenZ b <= 100000 ->
  exists c ev, internal_process unit hi cs T fuel (Scripts [] (rd_many n) (repeat accept (S n)))
                 (Conn AwaitingFrame [] b d e l) tt = Ret (Return WantRead, c, ev, tt) /\
    received ev = concat (repeat w_settings n) /\ delivered ev = b ++ concat (repeat o_ack n).
Proof.
  induction n as [|n IH]; intros fuel b d e l Hf Hb Hl; (destruct fuel as [|fuel]; [lia|]); cbn [internal_process c_state sc_hs].
  - cbn [sc_wr repeat]. rewrite flush_all by auto. cbn [c_wbuf].
    eexists _, _. split; [reflexivity|]. cbn. now rewrite app_nil_r.
  - cbn [sc_wr]. change (repeat accept (S (S n))) with (accept :: repeat accept (S n)).
    rewrite flush_all by auto. cbn [c_wbuf sc_rd].
    change (fill_read_buffer (rd_many (S n)) (Conn AwaitingFrame [] [] d e 0)) with
      (Conn AwaitingFrame w_settings [] d e 0, [EvRead 0 w_settings; EvReadError WantReadOrWrite], rd_many n).
    cbv beta iota. rewrite dispatch_settings. cbn [obind].
    destruct (IH fuel o_ack d e 0 ltac:(lia) ltac:(discriminate) ltac:(unfold lenZ; cbn; lia)) as (c & ev & E & Hr & Hd).
    rewrite E. cbn [obind]. eexists _, _. split; [reflexivity|].
    rewrite !received_app, !delivered_app, Hr, Hd. cbn [received delivered flat_map Datatypes.app repeat concat].
    rewrite !app_nil_r. auto.
Qed.

Lemma first_round cs T f rd wr :
  internal_process unit hi cs T (S f) (Scripts [(0, HsOk)] (octets w_hello :: block_read :: rd) wr) (fresh_conn 0) tt =
  let! (v, c, ev, w) := internal_process unit hi cs T f (Scripts [] rd wr)
      (Conn AwaitingFrame [] (o_settings ++ o_ack) (dt_init DEFAULT_MAX_TABLE_SIZE) (dt_init DEFAULT_MAX_TABLE_SIZE) 0) tt in
  Ret (v, c, [EvHandshake 0; EvRead 0 w_hello; EvReadError WantReadOrWrite; EvQueue o_settings; EvQueue o_ack] ++ ev, w).
Proof. reflexivity. Qed.

Lemma one_call_many_frames T cs n : exists s r c ev w, scripts_ok s /\
  process unit hi cs T s (fresh_conn 0) tt = Ret (r, c, ev, w) /\
  received ev = rfc_preface ++ concat (repeat w_settings (S n)) /\
  delivered ev = o_settings ++ concat (repeat o_ack (S n)).
Proof.
  set (s := Scripts [(0, HsOk)] (octets w_hello :: block_read :: rd_many n) (repeat accept (S n))).
  assert (Hfuel : exists k, (3 + length (c_rbuf (fresh_conn 0)) + script_octets (sc_rd s) = S (n + S k))%nat).
  { exists (1 + (script_octets (sc_rd s) - n))%nat. assert (n <= script_octets (sc_rd s))%nat; [|cbn [c_rbuf fresh_conn length]; lia].
    subst s. cbn [sc_rd]. unfold script_octets. cbn [flat_map snd octets block_read]. rewrite !app_length.
    assert (H : (n <= length (flat_map (fun x : Z * rd_result => match snd x with RdData o => o | RdErr _ => [] end) (rd_many n)))%nat);
      [|cbn [length]; lia].
    induction n as [|m IHm]; [lia|]. unfold rd_many in *. cbn [repeat concat]. rewrite flat_map_app, app_length.
    cbn. cbn in IHm. lia. }
  destruct Hfuel as (k & Hk). exists s.
  assert (Hok : scripts_ok s).
  { unfold scripts_ok, s. cbn [sc_rd]. apply Forall_cons; [|apply Forall_cons; [exact I|]].
    - split; [apply all_bytesb_ok; reflexivity|vm_compute; split; discriminate].
    - clear. unfold rd_many. induction n as [|m IHm]; [constructor|]. cbn [repeat concat Datatypes.app].
      apply Forall_cons; [|apply Forall_cons; [exact I|exact IHm]].
      split; [apply all_bytesb_ok; reflexivity|vm_compute; split; discriminate]. }
  unfold process. rewrite Hk. unfold s. rewrite first_round.
  destruct (loop_many T cs n (n + S k) (o_settings ++ o_ack) (dt_init DEFAULT_MAX_TABLE_SIZE) (dt_init DEFAULT_MAX_TABLE_SIZE) 0)
    as (c & ev & E & Hr & Hd); [|discriminate|unfold lenZ; cbn; lia|].
  { lia. }
  rewrite E. cbn [obind]. eexists _, _, _, _. split; [exact Hok|]. split; [reflexivity|].
  rewrite !received_app, !delivered_app, Hr, Hd. cbn [repeat concat].
  split; [reflexivity|]. cbn [delivered flat_map Datatypes.app]. now rewrite <- app_assoc.
Qed.

(** ** Header blocks of any size *)
Definition get_field : header := Hdr (str ":method") (str "GET").
Definition big (n : nat) (_ : request) (w : unit) : unit * app_answer := (w, Answers (Response 200 (repeat get_field n) [])).

Lemma encode_many cs t n rest : hpack_encode cs t (repeat get_field n ++ rest) =
  let! (b, t') := hpack_encode cs t rest in Ret (repeat 130 n ++ b, t').
Proof.
  induction n as [|n IH]; cbn [repeat Datatypes.app].
  - destruct (hpack_encode cs t rest) as [[b t']| | |]; reflexivity.
  - cbn [hpack_encode]. change (encode_header cs t get_field) with (@Ret (bytes * dyn_table) ([130], t)).
    cbn [obind]. rewrite IH. destruct (hpack_encode cs t rest) as [[b t']| | |]; reflexivity.
Qed.

(** The rest of such a block: server and x-powered-by. *)
Definition o_tail : bytes := [118; 3; 105; 111; 110; 64; 137; 242; 181; 103; 240; 91; 11; 34; 209; 250; 3; 105; 111; 110].
Definition big_octets (n : nat) : bytes := 136 :: repeat 130 n ++ o_tail.
Definition start_table := dt_init DEFAULT_MAX_TABLE_SIZE.

Lemma big_block cs n : exists e,
  hpack_encode cs start_table (rs_headers (complete_response (Response 200 (repeat get_field n) []))) = Ret (big_octets n, e).
Proof.
  set (e1 := DT [Hdr (str "x-powered-by") (str "ion"); Hdr (str "server") (str "ion")] 88 65536).
  exists e1. cbn [complete_response rs_headers rs_status rs_body].
  assert (E1 : encode_header cs start_table (Hdr (str ":status") (to_string 200)) = Ret ([136], start_table)) by reflexivity.
  assert (E2 : hpack_encode cs start_table [Hdr (str "server") SERVER_HEADER; Hdr (str "x-powered-by") SERVER_HEADER] = Ret (o_tail, e1))
    by (destruct cs; vm_compute; reflexivity).
  cbn [hpack_encode]. rewrite E1. cbn [obind]. cbn [Datatypes.app]. rewrite encode_many, E2. reflexivity.
Qed.

Lemma big_call cs T n e : let c := Conn AwaitingFrame [] [] start_table start_table 0 in
  hpack_encode cs start_table (rs_headers (complete_response (Response 200 (repeat get_field n) []))) = Ret (big_octets n, e) ->
  process unit (big n) cs T (Scripts [] [octets w_get] []) c tt =
  Ret (WantWrite, Conn AwaitingFrame [] (write_headers_response 1 (big_octets n) 5) start_table e 0,
       [EvRead 0 w_get; EvRequest get_root (Some (Response 200 (repeat get_field n) []));
        EvQueue (write_headers_response 1 (big_octets n) 5); EvQueue []; EvLog (rq_headers get_root) 200 0;
        EvWrite 0 (write_headers_response 1 (big_octets n) 5) [] (Error WantReadOrWrite)], tt).
Proof.
  intros c E. set (h := write_headers_response 1 (big_octets n) 5).
  assert (Ed : dispatch unit (big n) cs T (Conn AwaitingFrame w_get [] start_table start_table 0) tt =
    Ret (Continue, Conn AwaitingFrame [] h start_table e 0,
       [EvRequest get_root (Some (Response 200 (repeat get_field n) [])); EvQueue h; EvQueue [];
        EvLog (rq_headers get_root) 200 0], tt)).
  { unfold dispatch. cbn [c_state]. unfold try_read_frame. cbn [c_rbuf c_state c_wbuf c_dec c_enc c_last].
    change (lenZ w_get <? 9) with false. change (fh_parse (firstn 9 w_get)) with (Ret (FH 2 1 5 1)).
    cbn [obind fh_length]. change (2 >? MAX_FRAME_SIZE) with false. change (lenZ w_get <? 9 + 2) with false.
    cbv beta iota. change (firstn (Z.to_nat 2) (skipn 9 w_get)) with [130; 132].
    unfold process_frame. cbn [f_type f_header fh_type f_stream fh_stream].
    change (1 =? FRAME_TYPE_SETTINGS) with false. change (1 =? FRAME_TYPE_HEADERS) with true. cbv beta iota.
    change (headers_block (Frame (FH 2 1 5 1) [130; 132])) with (Ret [130; 132]). cbn [obind].
    assert (Eh : hpack_decode T start_table [130; 132] = Ret (Val (rq_headers get_root), start_table)) by reflexivity.
    rewrite Eh. cbv beta iota.
    assert (Er : process_request unit (big n) (rq_headers get_root) tt =
      (tt, Some (complete_response (Response 200 (repeat get_field n) [])), [EvRequest get_root (Some (Response 200 (repeat get_field n) []))]))
      by reflexivity.
    rewrite Er. cbv beta iota. rewrite E.
    cbn [complete_response rs_body rs_status write_data_response length obind f_stream f_header fh_stream].
    cbn [Datatypes.app queued flat_map]. rewrite !app_nil_r. reflexivity. }
  unfold process. change (3 + length (c_rbuf c) + script_octets (sc_rd (Scripts [] [octets w_get] [])))%nat with 14%nat.
  cbn [internal_process c_state c sc_hs sc_wr sc_rd]. unfold c. cbn [flush_write_buffer c_wbuf].
  change (fill_read_buffer [octets w_get] (Conn AwaitingFrame [] [] start_table start_table 0)) with
    (Conn AwaitingFrame w_get [] start_table start_table 0, [EvRead 0 w_get], @nil (Z * rd_result)).
  cbv beta iota. rewrite Ed. cbn [obind c_state c_wbuf sc_wr].
  unfold flush_write_buffer. cbn [c_wbuf].
  assert (Eh : exists x y, h = x :: y) by (unfold h, write_headers_response, fh_serialize; eexists _, _; reflexivity).
  destruct Eh as (x & y & Eh). rewrite Eh. cbn [c_wbuf obind]. reflexivity.
Qed.

Lemma big_session T cs n : exists c tr w, session unit (big n) cs T eq 0 tt any (Some WantWrite) c tr w /\
  received tr = w_hello ++ w_get /\ queued tr = o_settings ++ o_ack ++ write_headers_response 1 (big_octets n) 5.
Proof.
  destruct (big_block cs n) as (e & E). apply big_call with (T := T) in E.
  assert (E1 : process unit (big n) cs T (deliver [octets w_hello]) (fresh_conn 0) tt =
    Ret (WantRead, Conn AwaitingFrame [] [] start_table start_table 0,
      [EvHandshake 0; EvRead 0 w_hello; EvQueue o_settings; EvQueue o_ack;
       EvWrite 0 (o_settings ++ o_ack) (o_settings ++ o_ack) (Val 36)], tt)) by reflexivity.
  eexists _, _, _. split.
  - eapply session_process with (r := Some WantRead); [| | | |exact E]; [|discriminate|apply scripts_okb; reflexivity|exact I].
    eapply session_process with (r := None); [| | | |exact E1]; [apply session_start|discriminate|apply scripts_okb; reflexivity|exact I].
  - split; [reflexivity|]. cbn [Datatypes.app queued flat_map]. now rewrite !app_nil_r.
Qed.

Lemma header_front f o x h y : frame_octets f o -> o ++ x = h ++ y -> length h = 9%nat ->
  frame_header_octets (lenZ (w_payload f)) (w_type f) (w_flags f) (w_stream f) h.
Proof.
  intros (h' & -> & H) E Hl. rewrite <- app_assoc in E. pose proof (header_len9 _ _ _ _ _ H) as Hl'.
  assert (h' = h); [|subst; exact H].
  rewrite <- (firstn_exact 9 h' (w_payload f ++ x) Hl'), E. now apply firstn_exact.
Qed.

Lemma frame_unique f o x g p y : frame_octets f o -> frame_octets g p -> o ++ x = p ++ y -> f = g /\ x = y.
Proof.
  intros Hf Hg E. pose proof Hg as (h & -> & Hh). pose proof (header_len9 _ _ _ _ _ Hh) as Hl.
  rewrite <- app_assoc in E. pose proof (header_front f o x h (w_payload g ++ y) Hf E Hl) as H.
  pose proof (fh_parse_spec _ _ _ _ _ H) as E1. rewrite (fh_parse_spec _ _ _ _ _ Hh) in E1. injection E1 as El Et Ef Es.
  destruct Hf as (h' & -> & Hh'). rewrite <- app_assoc in E. pose proof (header_len9 _ _ _ _ _ Hh') as Hl'.
  assert (h' = h). { rewrite <- (firstn_exact 9 h' (w_payload f ++ x) Hl'), E. now apply firstn_exact. }
  subst h'. apply app_inv_head in E.
  assert (Ep : w_payload f = w_payload g).
  { rewrite <- (firstn_exact (length (w_payload f)) (w_payload f) x eq_refl), E. apply firstn_exact. unfold lenZ in El. lia. }
  rewrite Ep in E. apply app_inv_head in E. split; [|exact E]. destruct f, g. cbn in *. congruence.
Qed.

Lemma frames_front g p y fs o x : frame_octets g p -> frames_octets fs o -> o ++ x = p ++ y ->
  o = [] \/ exists fs' o', fs = g :: fs' /\ frames_octets fs' o' /\ o' ++ x = y.
Proof.
  intros Hg (os & H & ->) E. destruct H as [|f o1 fs os Hf H]; [now left|right]. cbn [concat] in E.
  rewrite <- app_assoc in E. destruct (frame_unique _ _ _ _ _ _ Hf Hg E) as [-> E2].
  exists fs, (concat os). repeat split; auto. now exists os.
Qed.

Lemma data_types stream body fs : data_frames stream body fs -> Forall (fun f => w_type f = 0) fs.
Proof. induction 1; repeat constructor; auto. Qed.
Lemma answered_types ins txs outs : answered ins txs outs ->
  Forall (fun f => w_type f = 0 \/ w_type f = 1 \/ w_type f = 4) outs.
Proof.
  induction 1 as [|ins txs outs fl s p H IH|ins txs outs fl s p H IH|ins txs outs fl s p tx fs H IH _ _ Hr|ins txs outs f H IH];
    auto; try (apply Forall_app; split; auto).
  destruct Hr as [|body fs Hd]; (apply Forall_cons; [cbn [w_type]; auto|]); [apply Forall_nil|]. eapply Forall_impl; [|eapply data_types; exact Hd]. cbn beta. auto.
Qed.

Lemma o_settings_frame : frame_octets server_settings o_settings.
Proof. exact settings_frame. Qed.
Lemma o_ack_frame : frame_octets (WFrame 4 1 0 []) o_ack.
Proof. exact ack_frame. Qed.

Lemma big_length n : lenZ (big_octets n) = Z.of_nat n + 21.
Proof. unfold lenZ, big_octets. cbn [length]. rewrite app_length, repeat_length. change (length o_tail) with 20%nat. lia. Qed.

Lemma big_unfit n fs : Z.of_nat n = 2 ^ 24 ->
  frames_octets fs (o_settings ++ o_ack ++ write_headers_response 1 (big_octets n) 5) ->
  exists f, In f fs /\ w_type f = 130.
Proof.
  intros Hn Hf. pose proof (big_length n) as Hlen. unfold write_headers_response in Hf.
  set (k := (n - 29)%nat). change (2 ^ 24) with 16777216 in Hn.
  assert (En : n = (20 + (9 + k))%nat) by lia.
  set (block := 136 :: repeat 130 20).
  set (y := repeat 130 k ++ o_tail).
  assert (Eb : big_octets n = block ++ repeat 130 9 ++ y).
  { unfold big_octets, block, y. rewrite En, !repeat_app, <- !app_assoc. reflexivity. }
  assert (Eh : fh_serialize (FH (u32 (lenZ (big_octets n))) FRAME_TYPE_HEADERS 5 1) = fh_serialize (FH (u32 (lenZ block)) 1 5 1)).
  { assert (El : lenZ (big_octets n) = 2 ^ 24 + lenZ block) by (rewrite Hlen, Hn; reflexivity). rewrite El. reflexivity. }
  rewrite Eh, Eb, (app_assoc _ block) in Hf.
  destruct (frames_front _ _ _ _ _ [] o_settings_frame Hf (app_nil_r _)) as [E|(fs1 & o1 & -> & H1 & E1)];
    [exfalso; clear -E; discriminate E|].
  destruct (frames_front _ _ _ _ _ [] o_ack_frame H1 E1) as [E|(fs2 & o2 & -> & H2 & E2)];
    [exfalso; clear -E E1; rewrite E in E1; discriminate E1|].
  assert (H3 := serialized_frame 1 5 1 block ltac:(clear; easy) ltac:(clear; easy) ltac:(clear; easy) ltac:(clear; easy)).
  destruct (frames_front _ _ _ _ _ [] H3 H2 E2) as [E|(fs3 & o3 & -> & (os & H4 & ->) & E4)];
    [exfalso; rewrite E in E2; symmetry in E2; apply app_eq_nil in E2 as [_ E2]; discriminate E2|].
  rewrite app_nil_r in E4. destruct H4 as [|f o4 fs4 os Hf4 _]; [exfalso; clear -E4; discriminate E4|].
  exists f. split; [cbn [In]; auto|]. cbn [concat] in E4.
  pose proof (header_front f o4 _ _ _ Hf4 E4 eq_refl) as (l & s & r & E & _ & Hl & _).
  destruct (list_len3 l Hl) as (a & b & c & ->). cbn in E. congruence.
Qed.

Lemma big_oversized n : Z.of_nat n = 2 ^ 14 -> exists f,
  frames_octets [server_settings; WFrame 4 1 0 []; f] (o_settings ++ o_ack ++ write_headers_response 1 (big_octets n) 5) /\
  16384 < lenZ (w_payload f).
Proof.
  intros Hn. pose proof (big_length n) as Hlen. change (2 ^ 14) with 16384 in Hn.
  exists (WFrame 1 5 1 (big_octets n)). split; [|cbn [w_payload]; lia].
  apply frames_octets_cons; [exact o_settings_frame|]. apply frames_octets_cons; [exact o_ack_frame|].
  apply frames_octets_one. apply serialized_frame; [easy|easy|easy|]. change (2 ^ 24) with 16777216. lia.
Qed.

Lemma some_nat z : 0 <= z -> exists n, Z.of_nat n = z.
Proof. intros H. exists (Z.to_nat z). now apply Z2Nat.id. Qed.

Lemma big_ok cs n : answers_ok cs (big n).
Proof.
  intros rq w w' r H. injection H as _ <-. split; [cbn; lia|]. split; [reflexivity|].
  cbn [rs_headers]. apply Forall_forall. intros h Hh. apply repeat_spec in Hh as ->.
  assert (H : forall x, forallb (fun b => (0 <=? b) && (b <? 128)) x = true -> lenZ x < 2 ^ 30 -> string_ok cs x).
  { intros x H Hl. rewrite forallb_forall in H. split; [|split; [exact Hl|right]]; apply Forall_forall; intros b Hb;
      specialize (H b Hb); unfold is_byte; lia. }
  split; apply H; reflexivity.
Qed.

(** ** Cases for the theorems *)
Lemma hi_ok cs : answers_ok cs hi.
Proof. intros rq w w' r H. injection H as _ <-. split; [cbn; lia|]. split; [reflexivity|constructor]. Qed.
Lemma failing_ok cs : answers_ok cs failing.
Proof. intros rq w w' r H. discriminate H. Qed.

Definition whole (s : scripts) : Prop := Forall any (sc_rd s) /\ Forall whole_writes (sc_wr s).

(** The octets of [exchange] one at a time; every third one in a call of its own. *)
Definition one_by_one (x : bytes) : list scripts :=
  map (fun i => Scripts [(0, HsOk)] (map (fun b => octets [b]) (firstn 3 (skipn (3 * i) x))) [accept; accept]) (seq 0 (S (length x / 3))).
Lemma exchange_slow T cs : exists c tr w, session unit hi cs T eq 7 tt whole (Some WantRead) c tr w /\
  received tr = w_hello ++ w_get /\ lenZ (requests tr) = 1 /\ lenZ (filter is_write tr) = 3.
Proof.
  apply (by_run hi cs T eq 7 tt whole (one_by_one (w_hello ++ w_get))).
  - apply Forall_forall. intros s Hs. apply scripts_okb.
    assert (X : forallb (fun s => forallb (fun x => match snd x with
      | RdData o => forallb (fun b => (0 <=? b) && (b <? 256)) o && (1 <=? lenZ o) && (lenZ o <=? TEMP_READ_BUFFER_SIZE)
      | RdErr _ => true end) (sc_rd s)) (one_by_one (w_hello ++ w_get)) = true) by (vm_compute; reflexivity).
    rewrite forallb_forall in X. exact (X s Hs).
  - apply Forall_forall. intros s Hs. unfold one_by_one in Hs. apply in_map_iff in Hs as (i & <- & _).
    split; [apply Forall_any|]. repeat constructor.
  - destruct cs; vm_compute; repeat split.
Qed.

(** An incomplete request: the response is an empty header block. *)
Lemma no_status T cs : exists c tr w, session unit hi cs T eq 0 tt any (Some WantRead) c tr w /\
  received tr = w_hello ++ [0; 0; 1; 1; 5; 0; 0; 0; 1; 130] /\
  delivered tr = o_settings ++ o_ack ++ [0; 0; 0; 1; 5; 0; 0; 0; 1].
Proof.
  apply (by_run hi cs T eq 0 tt any [deliver [octets (w_hello ++ [0; 0; 1; 1; 5; 0; 0; 0; 1; 130])]]);
    [scripts_ok|apply Forall_any|].
  destruct cs; vm_compute; repeat split.
Qed.

(** A failing handler. *)
Lemma failing_exchange T cs : exists c tr w, session unit failing cs T eq 0 tt any (Some WantRead) c tr w /\
  received tr = w_hello ++ w_get /\ requests tr = [(get_root, Some (Response 500 [] []))] /\
  exists x, delivered tr = x ++ [142] ++ o_tail.
Proof.
  apply (by_run failing cs T eq 0 tt any [deliver [octets (w_hello ++ w_get)]]); [scripts_ok|apply Forall_any|].
  destruct cs; vm_compute; do 3 (split; [reflexivity|]);
    match goal with |- exists x, ?l = _ => exists (firstn (length l - 21) l) end; reflexivity.
Qed.

(** A wrong preface. *)
Lemma wrong_preface_dropped T cs : exists c tr w, session unit hi cs T eq 0 tt any (Some DiscardConnection) c tr w /\
  received tr = str "GET / HTTP/1.1" ++ repeat 13 12.
Proof.
  apply (by_run hi cs T eq 0 tt any [deliver [octets (str "GET / HTTP/1.1" ++ repeat 13 12)]]);
    [scripts_ok|apply Forall_any|].
  destruct cs; vm_compute; repeat split.
Qed.

(** An oversized frame after a request, then another request. *)
Lemma oversized_dropped T cs : exists c tr w, session unit hi cs T eq 0 tt any (Some DiscardConnection) c tr w /\
  received tr = w_hello ++ w_get ++ [0; 64; 1; 0; 0; 0; 0; 0; 1] ++ w_get /\ lenZ (requests tr) = 1.
Proof.
  apply (by_run hi cs T eq 0 tt any [deliver [octets (w_hello ++ w_get ++ [0; 64; 1; 0; 0; 0; 0; 0; 1] ++ w_get)]]);
    [scripts_ok|apply Forall_any|].
  destruct cs; vm_compute; repeat split.
Qed.

(** GOAWAY, then a request. *)
Definition w_goaway : bytes := [0; 0; 8; 7; 0; 0; 0; 0; 0; 0; 0; 0; 0; 0; 0; 0; 0].
Lemma goaway_stops T cs : exists c tr w, session unit hi cs T eq 0 tt any (Some DiscardConnection) c tr w /\
  received tr = w_hello ++ w_goaway ++ w_get /\ requests tr = [].
Proof.
  apply (by_run hi cs T eq 0 tt any [deliver [octets (w_hello ++ w_goaway ++ w_get)]]); [scripts_ok|apply Forall_any|].
  destruct cs; vm_compute; repeat split.
Qed.

(** PING frames around a request. *)
Lemma pings T cs : exists c tr w, session unit hi cs T eq 0 tt any (Some WantRead) c tr w /\
  received tr = w_hello ++ w_ping ++ w_get ++ w_ping /\ lenZ (requests tr) = 1.
Proof.
  apply (by_run hi cs T eq 0 tt any [deliver [octets (w_hello ++ w_ping ++ w_get ++ w_ping)]]); [scripts_ok|apply Forall_any|].
  destruct cs; vm_compute; repeat split.
Qed.

(** A write blocks twice, then succeeds in two parts. *)
Lemma blocked_writes T cs : exists c tr w, session unit hi cs T eq 0 tt whole (Some WantRead) c tr w /\
  received tr = w_hello ++ w_get /\
  map (fun e => match e with EvWrite t o k _ => (t, lenZ o, lenZ k) | _ => (0, 0, 0) end) (filter is_write tr) =
    [(0, 36, 0); (2, 36, 0); (3, 36, 20); (4, 16, 16); (5, 44, 44)] /\ last_success 0 tr = 5.
Proof.
  apply (by_run hi cs T eq 0 tt whole [Scripts [(0, HsOk)] [octets w_hello] []; Scripts [] [] [(2, WrErr WantReadOrWrite)];
      Scripts [] [] [(3, WrOk 20)]; Scripts [] [octets w_get] [(4, WrOk 16); (5, WrOk 44)]]); [scripts_ok| |].
  - repeat (apply Forall_cons; [split; [apply Forall_any|repeat constructor]|]). constructor.
  - destruct cs; vm_compute; repeat split.
Qed.
