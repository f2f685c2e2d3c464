(** C125: what the console shows at level debug. *)
From Verif Require Import FileSys Files Router App AppProofs PropApp.
From Verif Require Import Base BaseLemmas SpecFrames SpecTable SpecHpack HpackLemmas Huffman DynTable DynTableProofs HpackDec HpackDecProofs Http Conn SpecConn AccessLog Messages SpecMessages ConnLemmas ConnBasic ConnWit
  MessagesProofs MessagesRule MessagesFiles PropMessages DebugMessages SpecDebug DebugProofs DebugFrames PropPrivate.
From Verif Require ConnRun ConnMain.

(** Every connection has its messages, and those above level debug are the ones that are
    shown at the default level (C108-C110, C123). *)
Theorem C125_above : forall W app cs T says thrown unhandled others t0 (w0 : W) A r c tr w,
  session W app cs T others t0 w0 A r c tr w ->
  exists ms, verbose W app cs T says thrown unhandled others t0 w0 A r c tr w ms /\
    narrated W app cs T (fun rq w => louder (says rq w)) thrown unhandled others t0 w0 A r c tr w (louder ms).
Proof.
  intros W app cs T says thrown unh others t0 w0 A r c tr w H.
  destruct (verbose_exists app cs T says thrown unh others t0 w0 _ _ _ _ _ H) as [ms V]. exists ms. split; [exact V|]. now apply verbose_narrated.
Qed.
Print Assumptions C125_above.

(** Of every request that is passed to the application there are the fields, one message each,
    and right after them what the application says when it is given this request and gives
    the answer that is sent, in a state which is as the start, the requests and the others
    leave it. *)
Theorem C125_requests : forall W app cs T says thrown unhandled (others : W -> W -> Prop) t0 (w0 : W) A r c tr w ms (kind : W -> Prop),
  kind w0 -> (forall rq w, kind w -> kind (fst (app rq w))) -> (forall w w', others w w' -> kind w -> kind w') ->
  verbose W app cs T says thrown unhandled others t0 w0 A r c tr w ms ->
  forall rq a, In (rq, a) (requests tr) -> treated app says kind ms rq a.
Proof.
  intros W app cs T says thrown unh others t0 w0 A r c tr w ms kind K0 Ka Ko V rq a H. apply (verbose_covers _ _ _ _ _ _ _ kind Ka) in V as [V _]; auto.
  unfold covers in V. rewrite Forall_forall in V.
  unfold requests in H. apply in_flat_map in H as (e & He & H). apply V in He. destruct e; cbn in H, He; try tauto. destruct H as [H|[]]. now injection H as <- <-.
Qed.
Print Assumptions C125_requests.

(** In particular, the fields of every request that is passed to the application or logged
    are shown, one message each, in order and in one piece, as they are passed on. *)
Theorem C125_fields : forall W app cs T says thrown unhandled others t0 (w0 : W) A r c tr w ms,
  verbose W app cs T says thrown unhandled others t0 w0 A r c tr w ms ->
  (forall rq a, In (rq, a) (requests tr) -> shows ms (rq_headers rq)) /\ (forall hs st sz, In (hs, st, sz) (logged tr) -> shows ms hs).
Proof.
  intros W app cs T says thrown unh others t0 w0 A r c tr w ms V. split.
  - intros rq a H. destruct (C125_requests _ _ _ _ _ _ _ _ _ _ _ _ _ _ _ _ (fun _ => True) I (fun _ _ _ => I) (fun _ _ _ _ => I) V _ _ H) as (w1 & x & y & _ & E & _).
    exists x, (says rq w1 ++ y). exact E.
  - apply (verbose_covers _ _ _ _ _ _ _ (fun _ => True) (fun _ _ _ => I) _ _ _ _ _ _ _ _ _ (fun _ _ _ _ => I) I) in V as [V _]. unfold covers in V. rewrite Forall_forall in V.
    intros hs st sz H. unfold logged in H. apply in_flat_map in H as (e & He & H). apply V in He. destruct e; cbn in H, He; try tauto. destruct H as [H|[]]. now injection H as <- <- <-.
Qed.
Print Assumptions C125_fields.

(** The messages about states tell a life of the connection that begins with the handshake
    and goes only where it may go; it never ends in a state in which the server would wait
    for more if the connection is dropped, and only in such a state if the server waits. *)
Theorem C125_states : forall W app cs T says thrown unhandled others t0 (w0 : W) A r c tr w ms,
  (forall rq w, Forall (fun m => ~ about_states m) (says rq w)) ->
  verbose W app cs T says thrown unhandled others t0 w0 A r c tr w ms ->
  exists s, life (str "AwaitingHandshake") ms s /\ In (c_state c, s) state_names /\
    match r with
    | None => s = str "AwaitingHandshake"
    | Some WantRead => s = str "AwaitingHandshake" \/ s = str "AwaitingPreface" \/ s = str "AwaitingFrame"
    | Some WantWrite => s <> str "AwaitingHandshake" /\ s <> str "Closing"
    | Some DiscardConnection => s <> str "AwaitingFrame"
    end.
Proof.
  intros W app cs T says thrown unh others t0 w0 A r c tr w ms Hs V. exists (state_to_string (c_state c)).
  split; [exact (verbose_life _ _ _ _ _ _ _ Hs _ _ _ _ _ _ _ _ _ V)|]. apply verbose_session, session_end in V.
  split; [destruct (c_state c); cbn; tauto|].
  destruct r as [[]|]; cbn [good_end] in V.
  - destruct V as [-> | [-> | ->]]; auto.
  - destruct V as [V1 V2]. destruct (c_state c); split; try discriminate; now exfalso.
  - destruct (c_state c); try discriminate. now destruct V.
  - now rewrite V.
Qed.
Print Assumptions C125_states.

(** The messages tell of exactly the frames that have arrived, in order, with their type,
    flags, length and stream, as the octets received say; if the server waits for more, of all
    the whole frames among these octets.  Nothing is told of what is not a frame. *)
Theorem C125_frames : forall W app cs T says thrown unhandled others t0 (w0 : W) A r c tr w ms,
  (forall rq w, Forall (fun m => ~ about_frames m) (says rq w)) ->
  verbose W app cs T says thrown unhandled others t0 w0 A r c tr w ms ->
  (tells_of ms [] /\ (r = Some WantRead -> lenZ (received tr) < 24)) \/
  (exists fs o rest, received tr = rfc_preface ++ o ++ rest /\ frames_octets fs o /\ tells_of ms fs /\ (r = Some WantRead -> partial_frame rest)).
Proof.
  intros W app cs T says thrown unh others t0 w0 A r c tr w ms Hs V.
  destruct (verbose_told W app cs T says thrown unh Hs _ _ _ _ _ _ _ _ _ V) as (X & Y & Z).
  assert (N : r = Some WantRead \/ r <> Some WantRead) by (destruct r as [[]|]; auto; right; discriminate). destruct N as [-> | N].
  - specialize (Y ltac:(discriminate)). pose proof (ConnRun.session_run _ _ _ _ _ _ _ _ _ _ _ _ (verbose_session _ _ _ _ _ _ _ _ _ _ _ _ _ _ _ V)) as Q. cbn [ConnRun.Q] in Q.
    destruct Q as [P Q]. unfold ConnRun.P in P. destruct Y as (_ & [(Er & Ht & Hn)|(fs & o & Er & F & Ht & N1 & N2)]); [left|right].
    + split; [exact Ht|]. intros _. destruct (c_state c); try now destruct Q.
      * destruct P as [-> _]. reflexivity.
      * now rewrite Er.
    + exists fs, o, (c_rbuf c). split; [exact Er|]. split; [exact F|]. split; [exact Ht|]. intros _. apply ConnMain.incomplete_partial. destruct (c_state c); tauto.
  - destruct X as [X|(fs & o & rest & Er & F & Ht)]; [left|right; exists fs, o, rest]; repeat (split; auto); intros; now destruct N.
Qed.
Print Assumptions C125_frames.

(** Each message at level debug is one line on the console: false.  Every field is there, its
    value octet for octet ... *)
Theorem C125_console : forall W app cs T says thrown unhandled others t0 (w0 : W) A r c tr w ms l marks rq a h,
  verbose W app cs T says thrown unhandled others t0 w0 A r c tr w ms -> In (rq, a) (requests tr) -> In h (rq_headers rq) ->
  length marks = length ms -> In l [LTrace; LDebug] ->
  exists x y, console l marks ms = x ++ str " - request header: " ++ h_name h ++ str ": " ++ h_value h ++ [10] ++ y.
Proof.
  intros W app cs T says thrown unh others t0 w0 A r c tr w ms l marks rq a h V Hr Hh Hm Hl.
  destruct (proj1 (C125_fields _ _ _ _ _ _ _ _ _ _ _ _ _ _ _ _ V) _ _ Hr) as (p & q & E). clear V Hr.
  apply in_split in Hh as (h1 & h2 & Eh). rewrite Eh, map_app in E. cbn [map] in E. rewrite <- app_assoc in E. cbn [List.app] in E. rewrite app_assoc in E.
  set (b := map field_line h2 ++ q) in E. set (a0 := p ++ map field_line h1) in E. clearbody b a0. subst ms. clear Eh.
  revert marks Hm. induction a0 as [|m a0 IH]; intros [|[st tc] marks] Hm; try discriminate Hm; cbn [List.app] in *.
  - cbn [console]. assert (L : lets_through l (field_line h) = true) by (destruct Hl as [<-|[<-|[]]]; reflexivity). rewrite L.
    unfold console_line. eexists (str "[" ++ st ++ str "] [" ++ level_name LDebug ++ str "] " ++ tc), _. unfold field_line. cbn [m_text m_level]. rewrite <- !app_assoc. reflexivity.
  - injection Hm as Hm. destruct (IH marks Hm) as (x & y & E). cbn [console]. rewrite E. eexists (_ ++ x), y. now rewrite <- app_assoc.
Qed.
Print Assumptions C125_console.

(** ... so that a line of the client's choice stands on the console, whatever it asks for. *)
Theorem C125_forged_refuted : forall W app cs T says thrown unhandled others t0 (w0 : W) A r c tr w ms l marks rq a n s L,
  verbose W app cs T says thrown unhandled others t0 w0 A r c tr w ms -> In (rq, a) (requests tr) ->
  In (Hdr n (s ++ [10] ++ L)) (rq_headers rq) -> length marks = length ms -> In l [LTrace; LDebug] ->
  exists x y, console l marks ms = x ++ [10] ++ L ++ [10] ++ y.
Proof.
  intros W app cs T says thrown unh others t0 w0 A r c tr w ms l marks rq a n s L V Hr Hh Hm Hl.
  destruct (C125_console _ _ _ _ _ _ _ _ _ _ _ _ _ _ _ _ _ _ _ _ _ V Hr Hh Hm Hl) as (x & y & E). cbn [h_name h_value] in E.
  exists (x ++ str " - request header: " ++ n ++ str ": " ++ s), y. rewrite E, <- !app_assoc. reflexivity.
Qed.
Print Assumptions C125_forged_refuted.

(** The lists of table entries shown have the true size (RFC 7541 4.1), limit and entries. *)
Theorem C125_tables : forall t, table_ok t ->
  exists first rest, contents_debug t = first :: rest /\
    first = Msg LDebug (str "dynamic table (size: " ++ to_string (table_size (dt_table t)) ++ str ", max: " ++ to_string (dt_max t) ++ str "):") /\
    length rest = length (dt_table t) /\
    forall i h, nth_error (dt_table t) i = Some h ->
      nth_error rest i = Some (Msg LDebug (str " - (" ++ to_string (Z.of_nat i) ++ str ") " ++ h_name h ++ str ": " ++ h_value h)).
Proof.
  intros t [(_ & Hs & _) _]. eexists _, _. split; [reflexivity|]. split; [now rewrite Hs|].
  assert (H : forall l pos, length (entries_debug pos l) = length l /\ forall i h, nth_error l i = Some h ->
    nth_error (entries_debug pos l) i = Some (Msg LDebug (str " - (" ++ to_string (pos + Z.of_nat i) ++ str ") " ++ h_name h ++ str ": " ++ h_value h))).
  { induction l as [|x l IH]; intros pos; (split; [|intros i h]); cbn [entries_debug length].
    - reflexivity.
    - now destruct i.
    - f_equal. apply (IH (pos + 1)).
    - destruct i as [|i]; cbn [nth_error].
      + intros [= <-]. now rewrite Z.add_0_r.
      + intros E. rewrite (proj2 (IH (pos + 1)) i h E). do 4 f_equal. f_equal. lia. }
  exact (H (dt_table t) 0).
Qed.
Print Assumptions C125_tables.

(** What is called the current size of the table when an entry is added is the size of that
    entry: too small whenever the table has other entries. *)
Theorem C125_size_refuted : forall t h t', table_ok t -> header_sane h -> dt_insert t h = Ret t' -> (2 <= length (dt_table t'))%nat ->
  exists n, insert_debug t h = [Msg LDebug (str "dynamic table: current sz: " ++ to_string n ++ str ", max: " ++ to_string (dt_max t))] /\
    n = entry_size h /\ n < table_size (dt_table t').
Proof.
  intros t h t' [R _] Hh E Hl. destruct (dt_insert_rep _ _ _ _ R Hh) as (t2 & E2 & (Et & _)). rewrite E in E2. injection E2 as <-.
  unfold insert_debug. rewrite entry_size_eq by exact Hh. rewrite Et in Hl |- *. cbn [fit] in *.
  destruct (entry_size h <=? dt_max t) eqn:L; [|cbn in Hl; lia]. replace (entry_size h >? dt_max t) with false by lia.
  exists (entry_size h). split; [reflexivity|]. split; [reflexivity|]. rewrite table_size_cons.
  destruct (fit _ (dt_table t)) as [|x l]; [cbn in Hl; lia|]. rewrite table_size_cons. pose proof (entry_size_pos x). pose proof (table_size_nonneg l). lia.
Qed.
Print Assumptions C125_size_refuted.

Definition two_entries : dyn_table := DT [Hdr (str "server") (str "ion")] 41 65536.
Example C125_size_case : table_ok two_entries /\ header_sane (Hdr (str "x-powered-by") (str "ion")) /\
  dt_insert two_entries (Hdr (str "x-powered-by") (str "ion")) = Ret (DT [Hdr (str "x-powered-by") (str "ion"); Hdr (str "server") (str "ion")] 88 65536) /\
  insert_debug two_entries (Hdr (str "x-powered-by") (str "ion")) = [Msg LDebug (str "dynamic table: current sz: 47, max: 65536")] /\
  table_size [Hdr (str "x-powered-by") (str "ion"); Hdr (str "server") (str "ion")] = 88.
Proof. repeat split; try reflexivity; vm_compute; discriminate. Qed.

(** A client with a password, and the same client with a newline in it. *)
Definition no_debug {W} (_ : request) (_ : W) : list message := [].
Example C125_case : forall T cs, exists c tr w ms,
  verbose unit failing cs T no_debug oops boom eq 0 tt any (Some WantRead) c tr w ms /\
  received tr = rfc_preface ++ w_settings ++ with_password 87 (str "secret") /\
  In (asks (str "secret")) (map (fun y => rq_headers (fst y)) (requests tr)) /\
  ms = [
    debug (str "connection state changed from AwaitingHandshake to AwaitingPreface");
    info (str "valid HTTP/2 preface received");
    debug (str "SETTINGS frame sent");
    debug (str "connection state changed from AwaitingPreface to AwaitingFrame");
    debug (str "received frame header: type: 4, flag: 0x00, length: 0");
    debug (str "received SETTINGS frame (stream=0 flags=0)");
    debug (str "read 0 settings, sending ACK");
    debug (str "frame processed, continuing...");
    debug (str "received frame header: type: 1, flag: 0x05, length: 10");
    debug (str "received HEADERS frame for stream 1");
    debug (str " - end headers: true, end stream: true, length: 10");
    debug (str "decoder dynamic table:");
    debug (str "dynamic table (size: 0, max: 65536):");
    debug (str "encoder dynamic table:");
    debug (str "dynamic table (size: 0, max: 65536):");
    debug (str "dynamic table: current sz: 51, max: 65536");
    debug (str " - request header: :method: GET");
    debug (str " - request header: :path: /");
    debug (str " - request header: authorization: secret");
    err (str "error processing request: oops");
    debug (str "dynamic table: current sz: 41, max: 65536");
    debug (str "dynamic table: current sz: 47, max: 65536");
    debug (str "decoder dynamic table:");
    debug (str "dynamic table (size: 51, max: 65536):");
    debug (str " - (0) authorization: secret");
    debug (str "encoder dynamic table:");
    debug (str "dynamic table (size: 88, max: 65536):");
    debug (str " - (0) x-powered-by: ion");
    debug (str " - (1) server: ion");
    info (str "500 status code sent w/headers");
    debug (str "frame processed, continuing...")].
Proof.
  intros T cs. apply (by_tell failing cs T no_debug oops boom eq 0 tt any [deliver [octets (rfc_preface ++ w_settings ++ with_password 87 (str "secret"))]]); [scripts_ok|apply Forall_any|].
  destruct cs; vm_compute; (split; [reflexivity|]); (split; [reflexivity|]); (split; [left|]; reflexivity).
Qed.

(** A SETTINGS frame, a PING frame, which the server does not know, an update of the
    window of stream 5 and the beginning of a fourth frame. *)
Definition three_and_a_bit : bytes := w_settings ++ ([0; 0; 8; 6; 17; 0; 0; 0; 0] ++ repeat 7 8) ++ [0; 0; 4; 8; 0; 0; 0; 0; 5; 0; 0; 1; 0] ++ [0; 0; 9; 1; 4; 0; 0; 0; 1; 130].
Example C125_frames_case : forall T cs, exists c tr w ms,
  verbose unit failing cs T no_debug oops boom eq 0 tt any (Some WantRead) c tr w ms /\
  received tr = rfc_preface ++ three_and_a_bit /\
  map m_text (filter (fun m => bytes_eqb (firstn 14 (m_text m)) (str "received frame") || bytes_eqb (firstn 12 (m_text m)) (str "received SET") ||
                               bytes_eqb (firstn 12 (m_text m)) (str "received unk") || bytes_eqb (firstn 12 (m_text m)) (str "received WIN")) ms) = [
    str "received frame header: type: 4, flag: 0x00, length: 0"; str "received SETTINGS frame (stream=0 flags=0)";
    str "received frame header: type: 6, flag: 0x11, length: 8"; str "received unknown frame type: 6";
    str "received frame header: type: 8, flag: 0x00, length: 4"; str "received WINDOW_UPDATE frame for stream 5";
    str "received frame header: type: 1, flag: 0x04, length: 9"].
Proof.
  intros T cs. apply (by_tell failing cs T no_debug oops boom eq 0 tt any [deliver [octets (rfc_preface ++ three_and_a_bit)]]); [scripts_ok|apply Forall_any|].
  destruct cs; vm_compute; (split; [reflexivity|]); (split; reflexivity).
Qed.

Definition evil : bytes := str "x" ++ [10] ++ forged_line.
Example C125_forged_case : forall T cs, exists c tr w ms,
  verbose unit failing cs T no_debug oops boom eq 0 tt any (Some WantRead) c tr w ms /\
  received tr = rfc_preface ++ w_settings ++ with_password 87 evil /\
  (exists rq a, In (rq, a) (requests tr) /\ In (Hdr (str "authorization") (str "x" ++ [10] ++ forged_line)) (rq_headers rq)) /\
  console LDebug (repeat noon 5) (firstn 5 (skipn 15 ms)) =
    str "[2026-01-01 12:00:00.000] [debug] dynamic table: current sz: 93, max: 65536" ++ [10] ++
    str "[2026-01-01 12:00:00.000] [debug]  - request header: :method: GET" ++ [10] ++
    str "[2026-01-01 12:00:00.000] [debug]  - request header: :path: /" ++ [10] ++
    str "[2026-01-01 12:00:00.000] [debug]  - request header: authorization: x" ++ [10] ++
    forged_line ++ [10] ++
    str "[2026-01-01 12:00:00.000] [error] error processing request: oops" ++ [10].
Proof.
  intros T cs. apply (by_tell failing cs T no_debug oops boom eq 0 tt any [deliver [octets (rfc_preface ++ w_settings ++ with_password 87 evil)]]); [scripts_ok|apply Forall_any|].
  destruct cs; vm_compute; (split; [reflexivity|]); (split; [reflexivity|]); (split; [|reflexivity]); eexists _, _; (split; [left; reflexivity|]); right; right; left; reflexivity.
Qed.

(** A connection that the client ends by GOAWAY. *)
Definition w_goaway : bytes := [0; 0; 8; 7; 0; 0; 0; 0; 0; 0; 0; 0; 1; 0; 0; 0; 0].
Example C125_states_case : forall T cs, exists c tr w ms,
  verbose unit failing cs T no_debug oops boom eq 0 tt any (Some DiscardConnection) c tr w ms /\
  filter (fun m => bytes_eqb (firstn 30 (m_text m)) (str "connection state changed from ")) ms =
  [change (str "AwaitingHandshake") (str "AwaitingPreface"); change (str "AwaitingPreface") (str "AwaitingFrame");
   change (str "AwaitingFrame") (str "ClientClosed")].
Proof.
  intros T cs. apply (by_tell failing cs T no_debug oops boom eq 0 tt any [deliver [octets (rfc_preface ++ w_settings ++ w_goaway)]]); [scripts_ok|apply Forall_any|].
  destruct cs; vm_compute; split; reflexivity.
Qed.
