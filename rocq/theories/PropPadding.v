(** C26, what is made of padded HEADERS frames. *)
From Verif Require Import Base BaseLemmas SpecInt SpecTable SpecHuffman SpecHpack HpackLemmas SpecFrames SpecHpackEnc Huffman HuffmanProofs DynTable
  HpackDec HpackDecProofs HpackEnc HpackEncProofs Frames FramesProofs Http Conn SpecConn ConnLemmas ConnRule ConnBasic ConnTerm ConnRun ConnSpec ConnMain
  ConnDet ConnMore ConnUndef ConnLast ConnWit.

(** The block decoded, exactly: all of the payload, or all but its first five octets if
    the PRIORITY flag is set.  Of the five octets of priority fields the last one, the
    weight, is then read as the beginning of the block, because the pad length came first. *)
Theorem C26_padded_exactly : forall f prio fragment padding,
  f_payload f = [lenZ padding] ++ prio ++ fragment ++ padding ->
  (has_flag f 32 = false -> prio = [] -> headers_block f = Ret ([lenZ padding] ++ fragment ++ padding)) /\
  (has_flag f 32 = true -> forall dependency weight, prio = dependency ++ [weight] -> lenZ dependency = 4 ->
     headers_block f = Ret ([weight] ++ fragment ++ padding)).
Proof.
  intros f prio fragment padding E. unfold headers_block. split.
  - intros -> ->. now rewrite E.
  - intros -> dep w -> Hd. unfold subspan_from.
    destruct dep as [|a [|b [|c [|d [|? ?]]]]]; try (unfold lenZ in Hd; cbn [length] in Hd; lia).
    rewrite E. reflexivity.
Qed.
Print Assumptions C26_padded_exactly.

Example C26_padded_exactly_case :
  let f := Frame (FH 8 1 45 1) [1; 0; 0; 0; 0; 15; 130; 0] in
  has_flag f 32 = true /\ f_payload f = [lenZ [0]] ++ ([0; 0; 0; 0] ++ [15]) ++ [130] ++ [0] /\
  headers_block f = Ret [15; 130; 0].
Proof. repeat split. Qed.

Lemma empty_field dyn m : rfc_repr server_profile (dyn, m) [0; 0; 0] [Hdr [] []] (dyn, m).
Proof.
  assert (I : forall N, 1 <= N <= 8 -> p_rfc_int server_profile N [0] 0).
  { intros N HN. split; [|split; [easy|reflexivity]].
    assert (0 < 2 ^ N - 1) by (assert (2 ^ 1 <= 2 ^ N) by (apply Z.pow_le_mono_r; lia); change (2 ^ 1) with 2 in *; lia).
    replace 0 with (0 mod 2 ^ N) at 2 by (apply Z.mod_0_l; lia). constructor; [now split|].
    rewrite Z.mod_0_l by lia. lia. }
  assert (S : rfc_string server_profile [0] []).
  { change [0] with ([0] ++ [] : bytes). apply string_raw; [now apply (I 7)|lia|constructor|]. cbn. unfold lenZ. cbn. lia. }
  change [0; 0; 0] with ((0 :: [0]) ++ [0]). apply repr_literal; [lia| |exact S].
  change (0 :: [0]) with ([0] ++ [0]). apply name_literal; [now apply (I 4)|exact S].
Qed.

Lemma empty_fields n dyn m : rfc_block server_profile (dyn, m) (repeat 0 (n * 3)) (repeat (Hdr [] []) n) (dyn, m).
Proof.
  induction n as [|n IH]; [constructor|].
  change (repeat 0 (S n * 3)) with ([0; 0; 0] ++ repeat 0 (n * 3)).
  change (repeat (Hdr [] []) (S n)) with ([Hdr [] []] ++ repeat (Hdr [] []) n).
  eapply block_cons; [apply empty_field|exact IH].
Qed.

Lemma indexed_four dyn m : rfc_repr server_profile (dyn, m) [132] [Hdr (str ":path") (str "/")] (dyn, m).
Proof.
  apply repr_indexed with 4; [lia| |reflexivity]. split; [|split; [easy|reflexivity]].
  change 4 with (132 mod 2 ^ 7). constructor; [now split|reflexivity].
Qed.

Lemma padded_read blocks hss fragment hs st :
  rfc_blocks server_profile ([], 65536) (blocks ++ [fragment]) (hss ++ [hs]) st ->
  rfc_blocks server_profile ([], 65536) (blocks ++ [[132] ++ fragment ++ repeat 0 132])
    (hss ++ [[Hdr (str ":path") (str "/")] ++ hs ++ repeat (Hdr [] []) 44]) st.
Proof.
  intros H. apply blocks_app_inv in H as (h1 & h2 & [lm mm] & E & H1 & H2).
  inversion H2 as [|? ? hs' st1 ? hss2 ? Hf Hn]; subst. inversion Hn; subst.
  apply app_inj_tail in E as [-> ->]. eapply blocks_snoc; [exact H1|].
  eapply block_cons; [apply indexed_four|]. destruct st as [l m].
  eapply block_app; [exact Hf|]. apply (empty_fields 44).
Qed.

Lemma padded_bytes blocks fragment : Forall all_bytes (blocks ++ [fragment]) ->
  Forall all_bytes (blocks ++ [[132] ++ fragment ++ repeat 0 132]).
Proof.
  intros Hb. apply Forall_app in Hb as [H1 H2]. apply Forall_app. split; [exact H1|]. constructor; [|constructor].
  inversion H2; subst. apply Forall_app. split; [constructor; [now split|constructor]|].
  apply Forall_app. split; [assumption|]. apply Forall_forall. intros x Hx. apply List.repeat_spec in Hx. now subst.
Qed.

(** So padding can change what is asked for.  132 octets of padding, all zero as they have
    to be, put ":path: /" in front of the fields sent and 44 fields without name and value
    behind them, for every header block on every connection. *)
Theorem C26_other_fields_refuted : forall T blocks hss fragment hs l m,
  huffman_tree = Ret T -> Forall all_bytes (blocks ++ [fragment]) ->
  rfc_blocks server_profile ([], 65536) (blocks ++ [fragment]) (hss ++ [hs]) (l, m) ->
  exists t, decode_seq T (dt_init DEFAULT_MAX_TABLE_SIZE)
      (blocks ++ [[132] ++ fragment ++ repeat 0 132]) =
    Ret (Val (hss ++ [[Hdr (str ":path") (str "/")] ++ hs ++ repeat (Hdr [] []) 44]), t) /\
    dt_table t = l /\ dt_max t = m.
Proof.
  intros T blocks hss fragment hs l m HT Hb H.
  exact (connection_complete T _ _ l m HT (padded_bytes _ _ Hb) (padded_read _ _ _ _ _ H)).
Qed.
Print Assumptions C26_other_fields_refuted.

(** GET /Q, padded like this, with the flags END_STREAM, END_HEADERS and PADDED: the
    application is asked for /. *)
Definition w_padded : bytes :=
  [0; 0; 138; 1; 13; 0; 0; 0; 1] ++ [132] ++ [130; 4; 2; 47; 81] ++ repeat 0 132.
Example C26_padded_payload :
  headers_payload true false [130; 4; 2; 47; 81] ([132] ++ [130; 4; 2; 47; 81] ++ repeat 0 132) /\
  rfc_blocks server_profile ([], 65536) [[130; 4; 2; 47; 81]]
    [[Hdr (str ":method") (str "GET"); Hdr (str ":path") (str "/Q")]] ([], 65536).
Proof.
  split; [exists [], (repeat 0 132); now repeat split|].
  econstructor; [|constructor]. change [130; 4; 2; 47; 81] with ([130] ++ ([4; 2; 47; 81] ++ [])).
  change [Hdr (str ":method") (str "GET"); Hdr (str ":path") (str "/Q")]
    with ([Hdr (str ":method") (str "GET")] ++ [Hdr (str ":path") (str "/Q")] ++ []).
  eapply block_cons.
  { apply repr_indexed with 2; [lia| |reflexivity]. split; [|split; [easy|reflexivity]].
    change 2 with (130 mod 2 ^ 7). constructor; [now split|reflexivity]. }
  eapply block_cons; [|constructor].
  change [4; 2; 47; 81] with ((4 :: []) ++ [2; 47; 81]). apply repr_literal; [lia| |].
  - apply (name_indexed _ 4 [] [4] 4 (Hdr (str ":path") (str "/"))); [|lia|reflexivity]. split; [|split; [easy|reflexivity]].
    change 4 with (4 mod 2 ^ 4) at 2. constructor; [now split|reflexivity].
  - change [2; 47; 81] with ([2] ++ [47; 81]). apply string_raw; [|lia| |].
    + split; [|split; [easy|reflexivity]]. change (lenZ [47; 81]) with (2 mod 2 ^ 7). constructor; [now split|reflexivity].
    + now apply all_bytesb_ok.
    + cbn. unfold lenZ. cbn. lia.
Qed.

Theorem C26_other_request_refuted : forall cs, exists T c tr w resp,
  huffman_tree = Ret T /\ answers_ok cs hi /\ session unit hi cs T eq 0 tt any (Some WantRead) c tr w /\
  received tr = w_hello ++ w_padded /\
  exists hs, requests tr = [(Request (str "GET") (str "/") hs, Some resp)].
Proof.
  intros cs. exists the_tree.
  destruct (by_run hi cs the_tree eq 0 tt any [deliver [octets (w_hello ++ w_padded)]] (Some WantRead)
    (fun _ tr _ => received tr = w_hello ++ w_padded /\
       requests tr = [(Request (str "GET") (str "/")
         ([Hdr (str ":path") (str "/"); Hdr (str ":method") (str "GET"); Hdr (str ":path") (str "/Q")] ++
          repeat (Hdr [] []) 44), Some (Response 200 [] [104; 105]))]))
    as (c & tr & w & HS & R & Q); [scripts_ok|apply Forall_any|destruct cs; vm_compute; repeat split|].
  exists c, tr, w. eexists. split; [exact huffman_tree_eq|]. split; [apply hi_ok|]. split; [exact HS|].
  split; [exact R|]. eexists. exact Q.
Qed.
Print Assumptions C26_other_request_refuted.
