(** Proofs about the access log of the whole server (C82-C84). *)
From Verif Require Import Base BaseLemmas Huffman DynTable HpackDec HpackEnc Frames Http Conn SpecConn ConnLemmas ConnRule ConnBasic ConnTerm ConnSpec
  Poller Server SpecServer ServerProofs ServerReach ServerHistory AccessLog SpecApp AppProofs SpecLog.

Definition entry_of (x : handling) : list (list header * Z * Z) :=
  match x with Replied hs _ r => [(hs, rs_status r, lenZ (rs_body r))] | Abandoned _ => [] end.
Definition noted (ev : trace) : Prop := exists xs, Forall handling_ok xs /\ requests ev = flat_map asked_by xs /\ logged ev = flat_map entry_of xs.
Lemma noted_none ev : requests ev = [] -> logged ev = [] -> noted ev.
Proof. intros H1 H2. exists []. split; [apply Forall_nil|]. split; assumption. Qed.
Lemma noted_app a b : noted a -> noted b -> noted (a ++ b).
Proof.
  intros (xs & H1 & H2 & H3) (ys & K1 & K2 & K3). exists (xs ++ ys). split; [now apply Forall_app|].
  rewrite requests_app, logged_app, !flat_map_app. split; congruence.
Qed.

Section Noted.
  Variable W : Type.
  Variable app : request -> W -> W * app_answer.
  Variable cs : bool.
  Variable T : tree.
  Hypothesis status_ok : forall rq w w' r, app rq w = (w', Answers r) -> 0 <= rs_status r.

  Lemma frame_noted f d e w fe d' e' w' ev : process_frame W app cs T f d e w = Ret (fe, d', e', w', ev) -> noted ev.
  Proof.
    intros E. apply process_frame_inv in E.
    destruct E as [H|[H|[H|[H|[H|[H|H]]]]]].
    1-6: decompose [and] H; subst; now apply noted_none.
    destruct H as (_ & block & _ & [H|[H|H]]).
    - decompose [and] H; subst; now apply noted_none.
    - destruct H as (er & H). decompose [and] H; subst; now apply noted_none.
    - destruct H as (hdrs & resp & evr & _ & Hp & H). destruct H as [(-> & _ & _ & ->)|(rs & -> & [(Et & _)|(block' & data & _ & _ & _ & ->)])].
      + apply process_request_inv in Hp as [(_ & _ & K & _)|(p & m & a & _ & _ & _ & [(_ & _ & ->)|(r & _ & K & _)])]; try discriminate K.
        exists [Abandoned (Request m p hdrs)]. split; [apply Forall_cons; [exact I|apply Forall_nil]|]. split; reflexivity.
      + destruct (hpack_encode_rou cs (rs_headers rs) e) as [(x & Ee)|Ee]; congruence.
      + destruct (process_request_served W app (fun _ _ => True) w status_ok hdrs w w' rs evr [] Hp (handled_none _ _ _)) as (Hs & _ & Hl & _).
        exists [Replied hdrs (requests evr) rs]. split; [apply Forall_cons; [exact Hs|apply Forall_nil]|].
        rewrite requests_app, logged_app, Hl. split; [|reflexivity]. cbn [requests flat_map asked_by]. reflexivity.
  Qed.
  Lemma read_noted c w v c' ev w' : try_read_frame W app cs T c w = Ret (v, c', ev, w') -> noted ev.
  Proof.
    unfold try_read_frame. destruct (lenZ (c_rbuf c) <? 9); [intros [= _ _ <- _]; now apply noted_none|].
    destruct (fh_parse _) as [h| | |]; try discriminate. cbn [obind]. destruct (fh_length h >? MAX_FRAME_SIZE); [intros [= _ _ <- _]; now apply noted_none|].
    destruct (lenZ (c_rbuf c) <? 9 + fh_length h); [intros [= _ _ <- _]; now apply noted_none|].
    destruct (process_frame _ _ _ _ _ _ _ _) as [[[[[fe d] e] w1] ev1]| | |] eqn:Ep; try discriminate. cbn [obind]. apply frame_noted in Ep.
    destruct fe; intros [= _ _ <- _]; exact Ep.
  Qed.
  Lemma dispatch_noted c w v c' ev w' : dispatch W app cs T c w = Ret (v, c', ev, w') -> noted ev.
  Proof.
    unfold dispatch. destruct (c_state c); try (intros [= _ _ <- _]; now apply noted_none).
    - unfold read_preface. destruct (_ <? _); [intros [= _ _ <- _]; now apply noted_none|]. destruct (bytes_eqb _ _); [|intros [= _ _ <- _]; now apply noted_none].
      destruct (try_read_frame _ _ _ _ _ _) as [[[[v2 c2] ev2] w2]| | |] eqn:E; try discriminate. cbn [obind]. apply read_noted in E. intros [= _ _ <- _].
      apply (noted_app [_]); [now apply noted_none|exact E].
    - apply read_noted.
    - unfold close. destruct (c_state c); intros [= _ _ <- _]; now apply noted_none.
  Qed.
  Lemma handshake_noted hs c r c' ev hs' : handle_handshake hs c = (r, c', ev, hs') -> noted ev.
  Proof. unfold handle_handshake. destruct hs as [|[now [|[]]] hs]; intros [= _ _ <- _]; now apply noted_none. Qed.
  Lemma flush_noted wr c c' ev wr' : flush_write_buffer wr c = (c', ev, wr') -> noted ev.
  Proof. unfold flush_write_buffer. destruct (c_wbuf c); [intros [= _ <- _]; now apply noted_none|]. destruct wr as [|[now [n|k|e]] wr]; intros [= _ <- _]; now apply noted_none. Qed.
  Lemma fill_noted rd : forall c c' ev rd', fill_read_buffer rd c = (c', ev, rd') -> noted ev.
  Proof.
    induction rd as [|[now [o|e]] rd IH]; intros c c' ev rd' E; cbn [fill_read_buffer] in E; destruct (_ >=? _); try (injection E as _ <- _; now apply noted_none).
    destruct (fill_read_buffer rd _) as [[c2 ev2] rd2] eqn:E2. apply IH in E2. injection E as _ <- _. apply (noted_app [_]); [now apply noted_none|exact E2].
  Qed.
  Lemma loop_noted fuel : forall s c w v c' ev w', internal_process W app cs T fuel s c w = Ret (v, c', ev, w') -> noted ev.
  Proof.
    induction fuel as [|fuel IH]; intros s c w v c' ev w' E; [discriminate|]. cbn [internal_process] in E.
    destruct (match c_state c with AwaitingHandshake => _ | _ => _ end) as [[[r c0] ev0] hs'] eqn:E0.
    assert (R0 : noted ev0) by (destruct (c_state c); [exact (handshake_noted _ _ _ _ _ _ E0)|..]; injection E0 as _ _ <- _; now apply noted_none).
    destruct r as [r|]; [injection E as _ _ <- _; exact R0|].
    destruct (flush_write_buffer _ _) as [[c1 ev1] wr'] eqn:E1. apply flush_noted in E1.
    destruct (c_wbuf c1); [|injection E as _ _ <- _; now apply noted_app].
    destruct (fill_read_buffer _ _) as [[c2 ev2] rd'] eqn:E2. apply fill_noted in E2.
    destruct (dispatch _ _ _ _ _ _) as [[[[v3 c3] ev3] w3]| | |] eqn:E3; try discriminate. cbn [obind] in E. apply dispatch_noted in E3.
    destruct v3; [|injection E as _ _ <- _; repeat apply noted_app; assumption..].
    destruct (internal_process _ _ _ _ _ _ _ _) as [[[[v4 c4] ev4] w4]| | |] eqn:E4; try discriminate. cbn [obind] in E. apply IH in E4.
    injection E as _ _ <- _. repeat apply noted_app; assumption.
  Qed.
  Lemma process_noted s c w r c' ev w' : process W app cs T s c w = Ret (r, c', ev, w') -> noted ev.
  Proof.
    unfold process. destruct (internal_process _ _ _ _ _ _ _ _) as [[[[v c1] ev1] w1]| | |] eqn:E; try discriminate. cbn [obind]. apply loop_noted in E.
    destruct v; [discriminate|intros [= _ _ <- _]; exact E..].
  Qed.

  (** ** All connections *)
  Definition labelled {A} (f : handling -> list A) (xs : list (nat * handling)) : list (nat * A) :=
    flat_map (fun x => map (pair (fst x)) (f (snd x))) xs.
  Lemma labelled_app {A} (f : handling -> list A) xs ys : labelled f (xs ++ ys) = labelled f xs ++ labelled f ys.
  Proof. apply flat_map_app. Qed.
  Lemma labelled_same {A} (f : handling -> list A) n xs : labelled f (map (pair n) xs) = map (pair n) (flat_map f xs).
  Proof. induction xs as [|x xs IH]; [reflexivity|]. cbn [map flat_map labelled fst snd]. rewrite map_app. f_equal. exact IH. Qed.
  Lemma asked_app h h' : asked_in (h ++ h') = asked_in h ++ asked_in h'.
  Proof. apply flat_map_app. Qed.
  Lemma asked_same n tr : asked_in (map (pair n) tr) = map (pair n) (requests tr).
  Proof.
    induction tr as [|e tr IH]; [reflexivity|]. change (e :: tr) with ([e] ++ tr). rewrite requests_app, !map_app, asked_app, IH. f_equal.
    unfold asked_in. cbn [map flat_map fst snd]. apply app_nil_r.
  Qed.
  Lemma log_calls_app h h' : log_calls (h ++ h') = log_calls h ++ log_calls h'.
  Proof. apply flat_map_app. Qed.
  Lemma log_calls_same n tr : log_calls (map (pair n) tr) = map (pair n) (logged tr).
  Proof.
    induction tr as [|e tr IH]; [reflexivity|]. change (e :: tr) with ([e] ++ tr). rewrite logged_app, !map_app, log_calls_app, IH. f_equal. now destruct e.
  Qed.
  Lemma calls_noted h : calls W app cs T h -> exists xs, Forall (fun x => handling_ok (snd x)) xs /\
    asked_in h = labelled asked_by xs /\ log_calls h = labelled entry_of xs.
  Proof.
    induction 1 as [|n sc c w r c' tr w' h _ (xs & H1 & H2 & H3) Ep].
    - exists []. split; [apply Forall_nil|]. split; reflexivity.
    - apply process_noted in Ep as (ys & K1 & K2 & K3). exists (xs ++ map (pair n) ys). split.
      + apply Forall_app. split; [exact H1|]. apply Forall_map. exact K1.
      + rewrite asked_app, log_calls_app, asked_same, log_calls_same, !labelled_app, !labelled_same, K2, K3. split; congruence.
  Qed.
  Lemma log_written peers xs : (forall n, peer_ok (peers n)) -> Forall (fun x => handling_ok (snd x)) xs ->
    forall ts, Forall tm_ok ts -> length ts = length (labelled entry_of xs) -> written peers xs ts (server_log true peers ts (labelled entry_of xs)).
  Proof.
    intros Hp Hx. induction Hx as [|[n x] xs Hx Hxs IH]; intros ts Ht Hl.
    - destruct ts; [constructor|discriminate Hl].
    - destruct x as [hs l r|rq]; cbn [labelled flat_map entry_of fst snd map] in Hl |- *.
      + destruct ts as [|t ts]; [discriminate Hl|]. apply Forall_cons_iff in Ht as [Ht Hts]. cbn [Datatypes.app server_log log_request length] in Hl |- *.
        assert (S0 : 0 <= rs_status r).
        { cbn [snd handling_ok] in Hx. destruct Hx as [K|m p r' fields _ _ (s & len & _ & (Hd & <- & _) & _)]; cbn [rs_status]; [lia|].
          pose proof (numeral_acc s 0 Hd ltac:(lia)). lia. }
        destruct (log_line_made (peers n) t hs (rs_status r) (lenZ (rs_body r)) (Hp n) Ht S0 (lenZ_nonneg _)) as (m & p & H1 & H2 & H3).
        eapply written_line; [exact H1|exact H2|exact H3|]. apply IH; [exact Hts|]. injection Hl as Hl. exact Hl.
      + apply written_not. now apply IH.
  Qed.
  Lemma written_lines peers xs ts o : (forall n, peer_ok (peers n)) -> written peers xs ts o ->
    Forall (fun x => match snd x with Replied hs _ _ => fields_clean hs | _ => True end) xs -> count 10 o = length ts.
  Proof.
    intros Hp. induction 1 as [|n hs l r m p t line xs ts o H1 H2 H3 _ IH|n rq xs ts o _ IH]; intros Hc; [reflexivity| |];
      apply Forall_cons_iff in Hc as [Hc Hcs]; [|now apply IH].
    cbn [snd] in Hc. rewrite count_app, (line_lines _ _ _ _ _ _ _ _ (Hp n) H3 Hc H1 H2), IH by exact Hcs. reflexivity.
  Qed.
End Noted.

(** ** Levels *)
Lemma no_logger peers : forall es ts, server_log false peers ts es = [].
Proof. induction es as [|[n [[hs st] sz]] es IH]; intros [|t ts]; try reflexivity. cbn [server_log log_request]. apply IH. Qed.
