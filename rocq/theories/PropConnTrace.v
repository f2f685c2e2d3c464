(** C129: at level trace the console accounts for the octets that come and go. *)
From Verif Require Import FileSys Files Router App FilesDebug.
From Verif Require Import Base BaseLemmas SpecFrames Huffman DynTable HpackDec Http Conn SpecConn AccessLog Messages ConnBasic ConnWit PropMessages DebugMessages SpecDebug DebugProofs PropDebug
  HpackTrace SpecHpackTrace ConnTrace SpecConnTrace ConnTraceProofs.

(** Every connection has its messages, and those from level debug on are the ones that are
    shown at that level (C125). *)
Theorem C129_debug : forall W app cs T says thrown unhandled others t0 (w0 : W) A r c tr w,
  session W app cs T others t0 w0 A r c tr w ->
  exists ms, recorded W app cs T says thrown unhandled others t0 w0 A r c tr w ms /\
    verbose W app cs T (fun rq w => at_debug (says rq w)) thrown unhandled others t0 w0 A r c tr w (at_debug ms).
Proof.
  intros W app cs T says thrown unh others t0 w0 A r c tr w H.
  destruct (recorded_exists W app cs T says thrown unh others t0 w0 _ _ _ _ _ H) as [ms R]. exists ms. split; [exact R|]. now apply recorded_verbose.
Qed.
Print Assumptions C129_debug.

(** The messages tell of the handshake, of each read, write and answer in their order, with
    the true numbers of octets; the number of octets that are still to be read is always
    that of those which have arrived, less 24 for the preface, less those of the frames. *)
Theorem C129_account : forall W app cs T says thrown unhandled others t0 (w0 : W) A r c tr w ms,
  (forall rq w, Forall (fun m => accounted m = false) (says rq w)) ->
  recorded W app cs T says thrown unhandled others t0 w0 A r c tr w ms -> exists n, account 0 tr ms n.
Proof.
  intros W app cs T says thrown unh others t0 w0 A r c tr w ms Hs R.
  destruct (recorded_account W app cs T says thrown unh Hs _ _ _ _ _ _ _ _ _ R) as (n & H & _). now exists n.
Qed.
Print Assumptions C129_account.

(** So the octets that were received and sent are counted, read by read and write by write. *)
Theorem C129_octets : forall W app cs T says thrown unhandled others t0 (w0 : W) A r c tr w ms,
  (forall rq w, Forall (fun m => accounted m = false) (says rq w)) ->
  recorded W app cs T says thrown unhandled others t0 w0 A r c tr w ms ->
  Forall2 (fun o m => exists now, m = read_line (lenZ o) now) (reads tr) (filter is_read ms) /\
  Forall2 (fun o m => m = flushed_line (lenZ o)) (writes tr) (filter is_flushed ms) /\ concat (reads tr) = received tr.
Proof.
  intros W app cs T says thrown unh others t0 w0 A r c tr w ms Hs R.
  destruct (C129_account _ _ _ _ _ _ _ _ _ _ _ _ _ _ _ _ Hs R) as (n & H). destruct (account_octets _ _ _ _ H) as [H1 H2]. split; [exact H1|]. split; [exact H2|].
  clear. unfold reads, received. induction tr as [|[] tr IH]; cbn [flat_map List.app concat]; auto. now rewrite IH.
Qed.
Print Assumptions C129_octets.

(** Each round of the loop names the state that the life told so far has led to. *)
Theorem C129_rounds : forall W app cs T says thrown unhandled others t0 (w0 : W) A r c tr w ms,
  (forall rq w, Forall (fun m => accounted m = false) (says rq w)) -> (forall rq w, Forall (fun m => ~ about_states m) (says rq w)) ->
  recorded W app cs T says thrown unhandled others t0 w0 A r c tr w ms ->
  forall before s after, ms = before ++ round_line s :: after -> life (str "AwaitingHandshake") before s.
Proof.
  intros W app cs T says thrown unh others t0 w0 A r c tr w ms H1 H2 R before s after E.
  destruct (recorded_tells W app cs T says thrown unh H1 H2 _ _ _ _ _ _ _ _ _ R) as [_ H]. exact (H _ _ _ E).
Qed.
Print Assumptions C129_rounds.

(** In the shipped program no handler has messages that could be taken for these. *)
Lemma hush_aside m ms : accounted m = false /\ ~ about_states m -> Forall (fun m => accounted m = false /\ ~ about_states m) ms -> Forall (fun m => accounted m = false /\ ~ about_states m) (m :: ms).
Proof. now constructor. Qed.
Ltac plain_one := split; [reflexivity|intros (E & rest & F); first [discriminate E|discriminate F]].
Ltac plain := repeat first [apply Forall_nil | apply hush_aside; [plain_one|]].
Lemma file_plain pe fails o p head : Forall (fun m => accounted m = false /\ ~ about_states m) (file_debug pe fails o p head).
Proof.
  unfold file_debug. destruct (is_readable o p); [|plain]. destruct head.
  - unfold head_response_debug, head_response_messages. destruct (get_file_size o p); cbn [List.app]; plain.
  - unfold get_response_debug, read_file_debug, read_file_messages. destruct (read_file o p); cbn [List.app]; [plain|]. destruct (fails p); cbn [List.app]; plain.
Qed.
Lemma static_plain pe fails o h p head : Forall (fun m => accounted m = false /\ ~ about_states m) (static_debug pe fails o h p head).
Proof.
  unfold static_debug. destruct (get_relative_path h p) as [rel| | |]; try apply Forall_nil. apply Forall_app. split.
  - unfold sanitize_messages. destruct (fs_absolute o (st_root h)) as [b| | |]; [destruct (fs_status o (path_string b)) as [[[]|]| | |]; [..|plain|plain|plain]|plain..];
      try plain. destruct (sanitize o (st_root h) rel) as [[]| | |]; plain.
  - destruct (sanitize_path o (st_root h) rel); [apply file_plain|plain].
Qed.
Theorem C129_program : forall path_error fails page a cs T thrown unhandled others t0 w0 A r c tr w ms,
  recorded world (main_app page a) cs T (program_debug path_error fails page a) thrown unhandled others t0 w0 A r c tr w ms ->
  (exists n, account 0 tr ms n) /\ forall before s after, ms = before ++ round_line s :: after -> life (str "AwaitingHandshake") before s.
Proof.
  intros pe fails page a cs T thrown unh others t0 w0 A r c tr w ms R.
  assert (P : forall rq w, Forall (fun m => accounted m = false /\ ~ about_states m) (program_debug pe fails page a rq w)).
  { clear. intros rq w. unfold program_debug, target_debug. apply Forall_app. split.
    - cbv zeta. destruct (find_route _ _ _ _); [apply Forall_nil|]. destruct (_ || _); [|apply Forall_nil]. destruct (find _ _); [apply static_plain|apply Forall_nil].
    - destruct (a_status_404_file_path a); [apply Forall_nil|]. destruct (snd _); try apply Forall_nil. destruct (_ =? 404); [apply file_plain|apply Forall_nil]. }
  assert (P1 : forall rq w, Forall (fun m => accounted m = false) (program_debug pe fails page a rq w)) by (intros rq v; eapply Forall_impl; [|apply P]; now intros m [H _]).
  assert (P2 : forall rq w, Forall (fun m => ~ about_states m) (program_debug pe fails page a rq w)) by (intros rq v; eapply Forall_impl; [|apply P]; now intros m [_ H]).
  split; [exact (C129_account _ _ _ _ _ _ _ _ _ _ _ _ _ _ _ _ P1 R)|exact (C129_rounds _ _ _ _ _ _ _ _ _ _ _ _ _ _ _ _ P1 P2 R)].
Qed.
Print Assumptions C129_program.

(** A body of 40000 octets. *)
Example C129_pieces_case : pieces 40000 [piece_line 16256 23744; piece_line 16256 7488; piece_line 7488 0].
Proof. apply (full_piece 23744); [lia|]. apply (full_piece 7488); [lia|]. apply last_piece. lia. Qed.

(** Three calls: ten octets of the preface; the rest, SETTINGS, a request and the beginning of
    another frame, with a transport that does not take the answer to the request; then it
    does. *)
Definition three_calls : list scripts :=
  [Scripts [(0, HsOk)] [octets (firstn 10 rfc_preface)] [];
   Scripts [] [octets (skipn 10 rfc_preface ++ w_settings); octets (w_get ++ [0; 0; 7])] [accept; (0, WrErr WantReadOrWrite)];
   Scripts [] [block_read] [accept]].
Example C129_case : forall T cs, exists c tr w ms,
  recorded unit hi cs T no_debug oops boom eq 0 tt any (Some WantRead) c tr w ms /\
  received tr = rfc_preface ++ w_settings ++ w_get ++ [0; 0; 7] /\
  filter (fun m => match m_level m with LTrace => true | _ => false end) ms = map (Msg LTrace) [
    str "processing state: AwaitingHandshake"; str "transport handshake complete"; str "read 10 bytes, buffer size now 10"; str "transport want read/write";
    str "not enough data for preface (10 < 24)";
    str "processing state: AwaitingPreface"; str "read 23 bytes, buffer size now 33"; str "read 14 bytes, buffer size now 47"; str "transport want read/write";
    str "processing state: AwaitingFrame"; str "flushed 36 bytes from write buffer"; str "transport want read/write";
    str "header type: Indexed, byte: 0x82"; str "read indexed header from static table (idx: 1, name: :method, val: GET)";
    str "header type: Indexed, byte: 0x84"; str "read indexed header from static table (idx: 3, name: :path, val: /)";
    str "enqueuing data frame for write (size: 2, rem: 0)";
    str "processing state: AwaitingFrame"; str "transport busy, write will be resumed later";
    str "processing state: AwaitingFrame"; str "flushed 44 bytes from write buffer"; str "transport want read/write";
    str "not enough data for frame header (3 < 9)"].
Proof.
  intros T cs. apply (by_record hi cs T no_debug oops boom eq 0 tt any three_calls); [scripts_ok|apply Forall_any|].
  destruct cs; vm_compute; (split; [reflexivity|]); (split; reflexivity).
Qed.
