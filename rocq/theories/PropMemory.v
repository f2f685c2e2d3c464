(** C113: what the server keeps for its clients is bounded. *)
From Verif Require Import Base BaseLemmas SpecTable SpecInt SpecHpack SpecHpackEnc Huffman HuffmanProofs DynTable DynTableProofs HpackLemmas HpackDec HpackDecProofs
  Frames Http Conn SpecConn ConnLemmas ConnBasic ConnTerm ConnWit SpecMemory Poller Server SpecServer ServerProofs ServerReach
  PropServer FileSys SpecFiles App SpecProgram ProgramProofs PropProgram MemoryProofs.

(** For each connection, whatever its client sends and however little it reads: less than
    64 KiB received and not handled, at most the greeting (27 octets) and one answer not yet
    sent, at most 64 KiB (RFC 7541's count) in each of the dynamic tables. *)
Theorem C113_connection : forall W app cs T others t0 w0 A r c tr w K,
  huffman_tree = Ret T -> answers_ok cs app -> answers_within app K ->
  session W app cs T others t0 w0 A r c tr w ->
  lenZ (c_rbuf c) < 65536 /\ lenZ (c_wbuf c) <= 27 + K /\
  table_size (dt_table (c_dec c)) <= 65536 /\ table_size (dt_table (c_enc c)) <= 65536.
Proof.
  intros W app cs T others t0 w0 A r c tr w K HT Ha HK HS.
  exact (session_kept W app cs T (is_tree_intro T HT) K (proj1 HK) others t0 w0 A r c tr w HS
    (answers_answered _ _ _ _ _ _ _ _ _ _ _ _ K Ha HK HS)).
Qed.
Print Assumptions C113_connection.

(** A client that sends the preface and two requests and reads nothing: the greeting and one
    answer wait to be sent, the second request is not even looked at. *)
Lemma hi_within cs : answers_ok cs hi /\ answers_within hi 785.
Proof.
  split; [intros rq w w' r [= _ <-]; split; [cbn; lia|]; split; [cbn; lia|constructor]|]. split; [lia|].
  intros rq w w' r [= _ <-]. vm_compute. discriminate.
Qed.
Example C113_case : forall T cs, exists c tr w,
  session unit hi cs T eq 0 tt any (Some WantWrite) c tr w /\
  lenZ (c_wbuf c) = 27 + 44 /\ c_rbuf c = w_get /\ lenZ (requests tr) = 1 /\ dt_table (c_enc c) <> [].
Proof.
  intros T cs. apply (by_run hi cs T eq 0 tt any [Scripts [(0, HsOk)] [octets (rfc_preface ++ w_get ++ w_get)] []]); [scripts_ok|apply Forall_any|].
  destruct cs; vm_compute; repeat split; discriminate.
Qed.

(** A request as the application sees it: at most 16384 fields, with names and values of at
    most 4096 octets. *)
Theorem C113_requests : forall W app cs T others t0 w0 A r c tr w rq an,
  huffman_tree = Ret T -> session W app cs T others t0 w0 A r c tr w -> In (rq, an) (requests tr) ->
  lenZ (rq_headers rq) <= 16384 /\
  Forall (fun h => lenZ (h_name h) <= 4096 /\ lenZ (h_value h) <= 4096) (rq_headers rq).
Proof.
  intros W app cs T others t0 w0 A r c tr w rq an HT HS Hin.
  destruct (session_room W app cs T (is_tree_intro T HT) 783 ltac:(lia) others t0 w0 A r c tr w HS) as (_ & _ & H).
  unfold requests_within in H. rewrite Forall_forall in H. exact (H _ Hin).
Qed.
Print Assumptions C113_requests.

(** Not much less than that is possible: after one field of 4090 octets, each octet of a
    header block can stand for another copy of it.  A single frame of 16384 octets makes a
    request of 67 million. *)
Definition large_field : header := Hdr [65] (repeat 66 (Z.to_nat 4090)).
Definition large_block : bytes := [64; 1; 65; 127; 251; 30] ++ repeat 66 (Z.to_nat 4090).
Lemma copies t h n : table_ok t -> state_of t = ([h], 65536) ->
  exists t', hpack_decode the_tree t (repeat 190 n) = Ret (Val (repeat h n), t').
Proof.
  intros K E.
  assert (B : rfc_block server_profile ([h], 65536) (repeat 190 n) (repeat h n) ([h], 65536)).
  { clear K E. induction n as [|n IH]; [constructor|]. change (repeat 190 (S n)) with ([190] ++ repeat 190 n). change (repeat h (S n)) with ([h] ++ repeat h n).
    eapply block_cons; [|exact IH].
    apply repr_indexed with (i := 62); [lia| |reflexivity]. split; [|split; cbn; lia].
    exact (int_short 7 190 ltac:(unfold is_byte; lia) ltac:(reflexivity)). }
  rewrite <- E in B at 1. assert (D : all_bytes (repeat 190 n)).
  { apply Forall_forall. intros x Hx. apply List.repeat_spec in Hx. subst x. unfold is_byte. lia. }
  destruct (hpack_decode_complete t (repeat 190 n) _ _ K D B) as (t' & -> & _). eauto.
Qed.
Theorem C113_amplified : forall T n, huffman_tree = Ret T ->
  lenZ large_block = 4096 /\ lenZ (repeat 190 n) = Z.of_nat n /\ lenZ (h_value large_field) = 4090 /\
  exists t, decode_seq T (dt_init DEFAULT_MAX_TABLE_SIZE) [large_block; repeat 190 n] =
    Ret (Val [[large_field]; repeat large_field n], t).
Proof.
  intros T n HT. split; [vm_compute; reflexivity|]. split; [unfold lenZ; now rewrite repeat_length|]. split; [vm_compute; reflexivity|].
  rewrite (tree_unique T HT). clear T HT. cbn [decode_seq].
  assert (E1 : exists t, hpack_decode the_tree (dt_init DEFAULT_MAX_TABLE_SIZE) large_block = Ret (Val [large_field], t) /\
    state_of t = ([large_field], 65536)) by (exists (DT [large_field] 4123 65536); split; [vm_compute; reflexivity|reflexivity]).
  destruct E1 as (t & E1 & E2).
  assert (K : table_ok t).
  { eapply hpack_decode_table_bounds; [exact huffman_tree_eq|exact table_ok_init| |exact E1].
    apply Forall_forall. intros x Hx. apply in_app_or in Hx as [Hx|Hx]; [cbn [In] in Hx; unfold is_byte; lia|].
    apply List.repeat_spec in Hx. subst x. unfold is_byte. lia. }
  rewrite E1. cbn [obind]. destruct (copies t large_field n K E2) as (t' & ->). cbn [obind]. eauto.
Qed.
Print Assumptions C113_amplified.

(** All connections together. *)
Theorem C113_server : forall linux listener W app cs T k0 w0 ok A pending s K,
  huffman_tree = Ret T -> answers_ok cs app -> answers_within app K ->
  setting listener k0 -> reached linux listener W app cs T k0 w0 ok A pending s ->
  fold_right Z.add 0 (map (fun x => kept_octets (e_conn (snd x))) (sv_conns W s)) <= 128 * (196634 + K).
Proof.
  intros linux listener W app cs T k0 w0 ok A pending s K HT Ha HK Hs H.
  apply (server_kept linux listener W app cs T k0 w0 ok A pending s K Hs (is_tree_intro T HT) (proj1 HK) H).
  intros fd e He. destruct (C50_own_life _ _ _ _ _ _ _ _ _ _ _ _ e Hs H (or_introl (ex_intro _ fd He))) as [w HS].
  exact (answers_answered _ _ _ _ _ _ _ _ _ _ _ _ K Ha HK HS).
Qed.
Print Assumptions C113_server.

Example C113_server_case : forall linux T, exists s, reached linux 3 unit hi true T k_std tt true enough_resources [] s /\
  map (fun x => kept_octets (e_conn (snd x))) (sv_conns unit s) = [0; 135].
Proof. intros [] T; run some_run. Qed.

(** The shipped program: files, and the status page, of at most [B] octets.  (The largest
    body of its own, of the routes for tests, is 2 MiB.) *)
Lemma program_room page a o nnp p m r B cs : files_fit page o -> 2097152 <= B ->
  (forall st now, lenZ (page st now) <= B) -> (forall l rd io b, os_fs o l = Some (EFile rd io b) -> lenZ b <= B) ->
  program_answer page a o nnp p m r -> answer_ok cs r /\ answer_room r <= 1223 + B + 9 * (B / 16256).
Proof.
  intros Hf HB Hp Ho H. pose proof (answer_shape _ _ _ _ _ _ _ Hf H) as S. split; [now apply shape_ok|].
  assert (L : lenZ (rs_body r) <= B).
  { assert (C : forall head io t b l r, os_fs o l = Some (EFile true io b) -> file_content head io t b r -> lenZ (rs_body r) <= B).
    { intros head io t b l r' E K. unfold file_content in K. destruct head; [destruct K as (n & _ & ->); cbn; lia|].
      destruct io; subst r'; [exact (Ho _ _ _ _ E)|cbn; lia]. }
    destruct H as [r' H _|r' l b t _ _ _ (_ & _ & K) _|r' _ _ _ _]; [|exact (Ho _ _ _ _ K)|cbn; lia].
    destruct H as [st now _ _ _|r' _ _ H|url root r' _ _ H|_ _]; [apply Hp| | |cbn; lia].
    - destruct H as [| | |b Hl _|b Hl _]; cbn [rs_body]; try (cbn; lia); lia.
    - destruct H as [K|l0 rel l _ _ _ _|l0 rel d name io b t r' _ _ _ _ K1 K2 K3|l0 rel l _ _ _ _ _|l0 rel _ _ _ _|l0 rel q _ _ _ _
        |l0 rel q name l io b t r' _ _ _ _ _ K1 K2 K3|l0 rel q _ _ _ _ _]; try (cbn; lia); eapply C; eassumption. }
  pose proof (fields_bound _ (shape_fields r S)) as F. destruct S as (_ & _ & S).
  assert (G : (length (rs_headers r) <= 2)%nat) by (destruct S; cbn; lia).
  pose proof (Z.div_le_mono (lenZ (rs_body r)) B 16256 ltac:(lia) L). unfold answer_room. lia.
Qed.
Theorem C113_program : forall linux listener page a cs T k0 w0 ok A pending s B,
  huffman_tree = Ret T -> setting listener k0 -> reached linux listener world (main_app page a) cs T k0 w0 ok A pending s ->
  args_ok a (w_os w0) -> 2097152 <= B < 2 ^ 64 ->
  (forall st now, lenZ (page st now) <= B) -> (forall l rd io b, os_fs (w_os w0) l = Some (EFile rd io b) -> lenZ b <= B) ->
  fold_right Z.add 0 (map (fun x => kept_octets (e_conn (snd x))) (sv_conns world s)) <= 128 * (197857 + B + 9 * (B / 16256)).
Proof.
  intros linux listener page a cs T k0 w0 ok A pending s B HT Hs H Ha HB Hp Ho.
  assert (Hf : files_fit page (w_os w0)).
  { split; [intros st now; specialize (Hp st now)|intros l rd io b E; specialize (Ho l rd io b E)]; lia. }
  replace (197857 + B + 9 * (B / 16256)) with (196634 + (1223 + B + 9 * (B / 16256))) by lia.
  pose proof (Z.div_pos B 16256 ltac:(lia) ltac:(lia)).
  apply (server_kept linux listener world (main_app page a) cs T k0 w0 ok A pending s (1223 + B + 9 * (B / 16256)) Hs (is_tree_intro T HT) ltac:(lia) H).
  intros fd e He. unfold answered_within. apply Forall_forall. intros [rq an] Hin.
  destruct (C80_answers linux listener page a cs T k0 w0 ok A pending s e rq an Hs H Ha (or_introl (ex_intro _ fd He)) Hin) as (r & -> & P).
  cbn [snd answer_within]. exact (program_room _ _ _ _ _ _ _ B cs Hf (proj1 HB) Hp Ho P).
Qed.
Print Assumptions C113_program.
