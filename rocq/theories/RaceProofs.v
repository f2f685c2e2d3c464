(** Proofs for C114. *)
From Verif Require Import Base BaseLemmas Http FileSys Files SpecFiles SpecConn ConnTerm FilesProofs FilesServe FilesRace SpecRace.

(** ** Nothing changes *)
Section Still.
  Variable H : history.
  Variable o : os.
  Hypothesis Ho : forall k, h_os H k = o.
  Hypothesis Hl : forall b, h_later H b = b.

  Lemma leading_still p : forall k result,
    match leading o result p with
    | Ret (r, rest) => exists j, leading_in H k result p = Ret (r, rest, j)
    | Throw => leading_in H k result p = Throw
    | Undef => leading_in H k result p = Undef
    | Fuel => leading_in H k result p = Fuel
    end.
  Proof.
    induction p as [|c p IH]; intros k result; cbn [leading leading_in]; [eauto|]. rewrite Ho.
    destruct (fs_exists o (path_string (result ++ [c]))) as [[]| | |]; cbn [obind]; eauto. exact (IH (S k) (result ++ [c])).
  Qed.
  Lemma weakly_still k p :
    match weakly_canonical o p with
    | Ret r => exists j, weakly_canonical_in H k p = Ret (r, j)
    | Throw => weakly_canonical_in H k p = Throw
    | Undef => weakly_canonical_in H k p = Undef
    | Fuel => weakly_canonical_in H k p = Fuel
    end.
  Proof.
    unfold weakly_canonical, weakly_canonical_in. rewrite Ho.
    destruct (fs_exists o (path_string p)) as [[]| | |]; cbn [obind]; auto.
    - rewrite Ho. destruct (fs_canonical o p); cbn [obind]; eauto.
    - pose proof (leading_still p (S k) []) as L. destruct (leading o [] p) as [[r rest]| | |]; cbn [obind]; try now rewrite L.
      destruct L as [j ->]. cbn [obind]. rewrite Ho. destruct (fs_canonical o r); cbn [obind]; eauto.
  Qed.
  Lemma sanitize_still root rel :
    match sanitize_path o root rel with
    | Some s => exists k, sanitize_path_in H root rel = Some (s, k)
    | None => sanitize_path_in H root rel = None
    end.
  Proof.
    unfold sanitize_path, sanitize_path_in, sanitize, sanitize_in. rewrite Ho.
    destruct (fs_absolute o root) as [p| | |]; cbn [obind]; auto. unfold fs_exists. rewrite !Ho.
    destruct (fs_status o (path_string p)) as [[[]|]| | |]; cbn [obind]; auto.
    pose proof (weakly_still 3 p) as L. destruct (weakly_canonical o p) as [b| | |]; cbn [obind]; try now rewrite L.
    destruct L as [j ->]. cbn [obind].
    pose proof (weakly_still j (fs_append b rel)) as L. destruct (weakly_canonical o (fs_append b rel)) as [f| | |]; cbn [obind]; try now rewrite L.
    destruct L as [i ->]. cbn [obind]. destruct (within b f); eauto.
  Qed.
  Lemma response_still k s head : file_response_in H k s head = Ret (file_response o s head).
  Proof.
    unfold file_response_in, file_response, is_readable_in, is_readable, entry_at. rewrite !Ho.
    destruct (resolve o s) as [l|] eqn:El; [|reflexivity].
    destruct (os_fs o l) as [[r io b| | |]|] eqn:Ef; try reflexivity. destruct r; [|reflexivity]. destruct head.
    - unfold head_response_in, head_response, get_file_size_in, get_file_size, entry_at. now rewrite !Ho, El, Ef.
    - unfold get_response_in, get_response, read_file_in, read_file. rewrite Ho, El, Ef. destruct io; [|reflexivity].
      cbv zeta. rewrite Hl, Z.ltb_irrefl, firstn_all. reflexivity.
  Qed.
  Lemma handle_still h p head : static_handle_in H h p head = static_handle o h p head.
  Proof.
    unfold static_handle_in, static_handle. destruct (get_relative_path h p) as [rel| | |]; cbn [obind]; auto.
    pose proof (sanitize_still (st_root h) rel) as L. destruct (sanitize_path o (st_root h) rel).
    - destruct L as [k ->]. apply response_still.
    - now rewrite L.
  Qed.
End Still.

(** ** What an answer is made from *)
Section Answers.
  Variable H : history.

  Lemma response_made k s head :
    (exists r, file_response_in H k s head = Ret r /\
      (r = Response 404 [] [] \/ r = Response 500 [] [] \/
       rs_status r = 200 /\ is_file (entry_at (h_os H k) s) /\
       exists m l, (k < m)%nat /\ resolve (h_os H m) s = At l /\ is_file (os_fs (h_os H m) l) /\ taken_from H head l r)) \/
    (head = false /\ is_file (entry_at (h_os H k) s) /\
     exists l x, resolve (h_os H (S (S k))) s = At l /\ is_odd (os_fs (h_os H (S (S k))) l) /\ h_odd H l = Some x).
  Proof.
    unfold file_response_in. destruct (is_readable_in H k s) eqn:Er; [|left; eauto].
    assert (Hf : is_file (entry_at (h_os H k) s)).
    { unfold is_readable_in in Er. destruct (entry_at (h_os H k) s) as [[r io b| | |]|]; try discriminate. now exists r, io, b. }
    destruct head.
    - left. eexists. split; [reflexivity|]. unfold head_response_in, get_file_size_in.
      destruct (entry_at (h_os H (S (S k))) s); [|auto]. destruct (entry_at (h_os H (S (S (S k)))) s) as [[r0 io0 b0| | |]|]; auto.
      destruct (entry_at (h_os H (S (S (S (S k))))) s) as [[r io b| | |]|] eqn:E; auto. right. right.
      split; [reflexivity|]. split; [exact Hf|]. unfold entry_at in E. destruct (resolve (h_os H (S (S (S (S k))))) s) as [l|] eqn:El; [|discriminate].
      exists (S (S (S (S k)))), l. split; [lia|]. split; [exact El|]. split; [now exists r, io, b|]. cbn [taken_from]. split; [reflexivity|].
      exists (S (S (S (S k)))), r, io, b, (to_string (lenZ b)). split; [exact E|]. split.
      + exists [], [Hdr (str "content-type") (get_mime_type s)]. split; [reflexivity|constructor].
      + apply to_string_spec. unfold lenZ. lia.
    - unfold get_response_in, read_file_in. destruct (resolve (h_os H (S (S k))) s) as [l|] eqn:El; [|left; cbn [obind]; eauto].
      destruct (os_fs (h_os H (S (S k))) l) as [[r io b|x|t|]|] eqn:Ef.
      + left. destruct r; [|cbn [obind]; eauto]. destruct io; [|cbn [obind]; eauto]. cbv zeta. cbn [obind]. eexists. split; [reflexivity|].
        destruct (lenZ (h_later H b) <? lenZ b) eqn:L; [auto|]. apply Z.ltb_ge in L. right. right. split; [reflexivity|]. split; [exact Hf|].
        exists (S (S k)), l. split; [lia|]. split; [exact El|]. split; [now exists true, true, b|]. cbn [taken_from].
        exists (S (S k)), b, (skipn (length b) (h_later H b)). split; [exact Ef|]. cbn [rs_body]. split.
        * unfold lenZ in *. rewrite firstn_length. lia.
        * symmetry. apply firstn_skipn.
      + destruct (h_odd H l) as [x'|] eqn:Eo; [|left; cbn [obind]; eauto]. right. split; [auto|]. split; [exact Hf|].
        exists l, x'. split; [reflexivity|]. split; [left; eauto|exact Eo].
      + left. cbn [obind]. eauto.
      + destruct (h_odd H l) as [x'|] eqn:Eo; [|left; cbn [obind]; eauto]. right. split; [auto|]. split; [exact Hf|].
        exists l, x'. split; [reflexivity|]. split; [now right|exact Eo].
      + left. cbn [obind]. eauto.
  Qed.
  Lemma handle_in_eq h p head rel : asks (st_prefix h) p rel ->
    static_handle_in H h p head = match sanitize_path_in H (st_root h) rel with
                                  | None => Ret (Response 403 [] [])
                                  | Some (s, k) => file_response_in H k s head
                                  end.
  Proof. intros A. unfold static_handle_in. now rewrite (asks_path h p rel A). Qed.
End Answers.

(** ** The check *)
Section Check.
  Variable H : history.
  Variable root : bytes.
  Variable l0 : location.
  Hypothesis HS : settled H root l0.
  Notation fsk k := (os_fs (h_os H k)).
  Notation wk k := (walk (os_fs (h_os H k)) (os_links (h_os H k))).

  Lemma settled_root : exists p, fs_absolute (h_os H 0) root = Ret p /\ plain p /\ forall k, wk k [] p = At l0.
  Proof.
    destruct (HS 0%nat) as (C0 & R0 & _). destruct (root_status _ C0 _ _ R0) as (p & E & P & _). exists p. split; [exact E|]. split; [exact P|].
    intros k. destruct (HS k) as (C & R & Ec). destruct (root_status _ C _ _ R) as (p' & E' & _ & W & _).
    assert (p' = p); [|congruence]. unfold fs_absolute in *. rewrite Ec in E'. rewrite E in E'. now injection E'.
  Qed.
  Lemma settled_dir k : real_place (fsk k) l0 /\ (exists x, fsk k l0 = Some (EDir x)) /\ exists x, fsk k [] = Some (EDir x).
  Proof.
    destruct (HS k) as (C & R & _). destruct (root_status _ C _ _ R) as (_ & _ & _ & _ & L). destruct R as (_ & _ & D & _).
    split; [exact L|]. split; [exact D|]. exact (root_dir _ l0 L D).
  Qed.

  Lemma leading_in_spec p : forall k result, clean (result ++ p) -> 
    match leading_in H k result p with
    | Ret (r, rest, j) => result ++ p = r ++ rest /\ (k <= j)%nat /\
        match rest with
        | [] => True
        | c :: _ => exists i, (i < j)%nat /\ (wk i [] (cut (r ++ [c])) = Err ENOENT \/ wk i [] (cut (r ++ [c])) = Err ENOTDIR)
        end
    | _ => True
    end.
  Proof.
    induction p as [|c p IH]; intros k result Hp; cbn [leading_in]; [rewrite !app_nil_r; auto|].
    assert (Hp1 : clean (result ++ [c])) by (apply (clean_front _ p); now rewrite <- app_assoc).
    assert (Hpp : result ++ c :: p = (result ++ [c]) ++ p) by now rewrite <- app_assoc.
    destruct (settled_dir k) as (_ & _ & H0).
    unfold fs_exists, fs_status. rewrite resolve_cut by auto.
    destruct (wk k [] (cut (result ++ [c]))) as [l|e] eqn:Ew.
    - cbn [obind].
      assert (Hr : real_place (fsk k) l) by (eapply walk_real; [apply real_nil|apply cut_parts, clean_parts; exact Hp1|exact Ew]).
      destruct (real_entry _ _ Hr ltac:(destruct H0; congruence)) as [en ->]. cbn [obind]. rewrite Hpp.
      rewrite Hpp in Hp. specialize (IH (S k) _ Hp). destruct (leading_in H (S k) (result ++ [c]) p) as [[[r rest] j]| | |]; auto.
      destruct IH as (E1 & E2 & E3). split; [exact E1|]. split; [lia|exact E3].
    - destruct e; cbn [obind]; auto; (split; [reflexivity|]; split; [lia|]; exists k; split; [lia|auto]).
  Qed.
  Lemma weakly_in_spec k p full k' : clean p -> weakly_canonical_in H k p = Ret (full, k') ->
    (exists j, (j < k')%nat /\ wk j [] (cut p) = At full) \/
    exists r c rest L i j, (i < j)%nat /\ (j < k')%nat /\ p = r ++ c :: rest /\ wk j [] (cut r) = At L /\ real_place (fsk j) L /\
      (wk i [] (cut (r ++ [c])) = Err ENOENT \/ wk i [] (cut (r ++ [c])) = Err ENOTDIR) /\ full = lexically_normal (L ++ c :: rest).
  Proof.
    intros Hp. unfold weakly_canonical_in. destruct (fs_exists (h_os H k) (path_string p)) as [[]| | |]; cbn [obind]; try discriminate.
    - unfold fs_canonical. destruct (settled_dir (S k)) as (_ & _ & H0). rewrite resolve_cut by auto.
      destruct (wk (S k) [] (cut p)) as [l|] eqn:E; [|discriminate]. cbn [obind]. intros [= <- <-]. left. exists (S k). auto.
    - pose proof (leading_in_spec p (S k) [] Hp) as L. destruct (leading_in H (S k) [] p) as [[[r rest] j]| | |]; cbn [obind]; try discriminate.
      cbn [app] in L. destruct L as (E1 & E2 & E3). unfold fs_canonical. destruct (settled_dir j) as (_ & _ & H0).
      assert (Hr : clean r) by (rewrite E1 in Hp; now apply clean_front in Hp). rewrite resolve_cut by auto.
      destruct (wk j [] (cut r)) as [L|] eqn:EL; [|discriminate]. cbn [obind]. intros E.
      assert (Ek : S j = k') by (injection E; auto). assert (Ef : lexically_normal (L ++ rest) = full) by (injection E; auto). clear E.
      assert (HL : real_place (fsk j) L) by (eapply walk_real; [apply real_nil|apply cut_parts, clean_parts; exact Hr|exact EL]).
      destruct rest as [|c rest].
      + left. exists j. split; [lia|]. rewrite app_nil_r in E1. rewrite E1, EL. f_equal. rewrite <- Ef. unfold lexically_normal.
        rewrite normal_names by now apply real_names in HL. cbn [normal]. rewrite app_nil_r, rev_involutive. destruct L; cbn [andb]; now rewrite app_nil_r.
      + right. destruct E3 as (i & Hi & E3). exists r, c, rest, L, i, j. repeat (split; [first [assumption|lia|auto]|]). auto.
  Qed.
  Lemma sanitize_in_some rel s k : sanitize_path_in H root rel = Some (s, k) ->
    exists full, s = path_string full /\ below l0 full /\ weakly_canonical_in H 5 (fs_append l0 rel) = Ret (full, k).
  Proof.
    destruct settled_root as (p & E & P & W). unfold sanitize_path_in, sanitize_in. rewrite E. cbn [obind].
    destruct (settled_dir 1%nat) as (_ & [x1 D1] & _). destruct (settled_dir 2%nat) as (_ & [x2 D2] & _).
    unfold fs_exists. rewrite (status_at _ l0 p _ P (W 1%nat) D1). cbn [obind]. rewrite (status_at _ l0 p _ P (W 2%nat) D2). cbn [obind].
    assert (EW : weakly_canonical_in H 3 p = Ret (l0, 5%nat)).
    { unfold weakly_canonical_in, fs_exists. destruct (settled_dir 3%nat) as (_ & [x3 D3] & _). rewrite (status_at _ l0 p _ P (W 3%nat) D3).
      cbn [obind]. unfold fs_canonical. now rewrite resolve_string, W. }
    rewrite EW. cbn [obind]. destruct (weakly_canonical_in H 5 (fs_append l0 rel)) as [[full k']| | |]; cbn [obind]; try discriminate.
    destruct (within l0 full) eqn:Ei; [|discriminate]. apply within_below in Ei. intros [= <- <-]. now exists full.
  Qed.
  Lemma append_clean_in rel : clean (fs_append l0 rel).
  Proof. apply (append_clean (h_os H 0)). exact (proj1 (settled_dir 0%nat)). Qed.
End Check.

(** ** Containment *)
Section Contained.
  Variable H : history.
  Variable h : static.
  Variable l0 : location.
  Hypothesis HS : settled H (st_root h) l0.
  Notation fsk k := (os_fs (h_os H k)).
  Notation wk k := (walk (os_fs (h_os H k)) (os_links (h_os H k))).

  Lemma full_shape rel full k : weakly_canonical_in H 5 (fs_append l0 rel) = Ret (full, k) ->
    exists ns t, full = ns ++ t /\ Forall named ns /\ tail_ok ns t.
  Proof.
    intros E. pose proof (append_clean_in H _ l0 HS rel) as Hp.
    destruct (weakly_in_spec H _ l0 HS 5 _ _ _ Hp E) as [(j & _ & W)|(r & c & rest & L & i & j & _ & _ & E1 & _ & HL & _ & ->)].
    - assert (Hr : real_place (fsk j) full) by (eapply walk_real; [apply real_nil|apply cut_parts, clean_parts; exact Hp|exact W]).
      exists full, []. rewrite app_nil_r. split; [auto|]. split; [|now left]. apply real_names in Hr. eapply Forall_impl; [|exact Hr]. exact name_named.
    - apply normal_shape; [|constructor]. rewrite E1 in Hp. apply clean_parts in Hp. apply Forall_app in Hp as [_ Hp]. apply Forall_app. split; [|exact Hp].
      apply clean_parts. exact (proj1 (real_clean _ _ HL)).
  Qed.

  Lemma no_links_in p head rel r : (forall l, h_odd H l = None) -> (forall k rest t, fsk k (l0 ++ rest) <> Some (ELink t)) ->
    asks (st_prefix h) p rel -> static_handle_in H h p head = Ret r -> rs_status r = 200 ->
    exists l, below l0 l /\ taken_from H head l r.
  Proof.
    intros Ho Hn Ha E Hs. rewrite (handle_in_eq H h p head rel Ha) in E.
    destruct (sanitize_path_in H (st_root h) rel) as [[s k]|] eqn:Es; [|injection E as <-; discriminate].
    destruct (sanitize_in_some H _ l0 HS rel s k Es) as (full & -> & Hb & Ew).
    destruct (response_made H k (path_string full) head) as [(r' & E' & D)|(_ & _ & l & x & _ & _ & K)]; [|now rewrite Ho in K].
    rewrite E in E'. injection E' as <-. destruct D as [->|[->|(_ & _ & m & l & _ & Er & Hf & Ht)]]; try discriminate Hs.
    exists l. split; [|exact Ht]. pose proof (full_shape rel full k Ew) as Sh.
    destruct (settled_dir H _ l0 HS m) as (R0 & D0 & DD).
    rewrite resolve_cut in Er; [|exact DD|destruct Sh as (ns & t & -> & N & T); now apply shape_clean].
    destruct (missing_no_links (h_os H m) l0 full l R0 D0 (Hn m) Sh Hb Er) as [K|[x K]]; [exact K|].
    destruct Hf as (a & b & c & Hf). congruence.
  Qed.

  Lemma stays_in p head rel l : asks (st_prefix h) p rel -> (forall k, leads_to (h_os H k) l0 rel l) ->
    static_handle_in H h p head = if within l0 l then file_response_in H 7 (path_string l) head else Ret (Response 403 [] []).
  Proof.
    intros Ha Hl. rewrite (handle_in_eq H h p head rel Ha).
    assert (EW : weakly_canonical_in H 5 (fs_append l0 rel) = Ret (l, 7%nat)).
    { pose proof (append_clean_in H _ l0 HS rel) as Hp. unfold weakly_canonical_in, fs_exists, fs_status, fs_canonical.
      assert (W : forall k, wk k [] (cut (fs_append l0 rel)) = At l).
      { intros k. destruct (settled_dir H _ l0 HS k) as (R0 & D0 & DD). rewrite append_walk by auto. specialize (Hl k). now apply walk_resolves in Hl. }
      destruct (settled_dir H _ l0 HS 5%nat) as (R0 & D0 & DD). rewrite (resolve_cut _ _ DD Hp), W.
      assert (Hrl : real_place (fsk 5) l) by (eapply walk_real; [apply real_nil|apply cut_parts, clean_parts; exact Hp|exact (W 5%nat)]).
      destruct (real_entry _ _ Hrl ltac:(destruct DD; congruence)) as [e He]. rewrite He. cbn [obind].
      destruct (settled_dir H _ l0 HS 6%nat) as (_ & _ & DD6). now rewrite (resolve_cut _ _ DD6 Hp), W. }
    destruct (settled_root H _ l0 HS) as (q & E & P & W). unfold sanitize_path_in, sanitize_in. rewrite E. cbn [obind].
    destruct (settled_dir H _ l0 HS 1%nat) as (_ & [x1 D1] & _). destruct (settled_dir H _ l0 HS 2%nat) as (_ & [x2 D2] & _).
    unfold fs_exists. rewrite (status_at _ l0 q _ P (W 1%nat) D1). cbn [obind]. rewrite (status_at _ l0 q _ P (W 2%nat) D2). cbn [obind].
    assert (E3 : weakly_canonical_in H 3 q = Ret (l0, 5%nat)).
    { unfold weakly_canonical_in, fs_exists. destruct (settled_dir H _ l0 HS 3%nat) as (_ & [x3 D3] & _). rewrite (status_at _ l0 q _ P (W 3%nat) D3).
      cbn [obind]. unfold fs_canonical. now rewrite resolve_string, W. }
    rewrite E3. cbn [obind]. rewrite EW. cbn [obind]. now destruct (within l0 l).
  Qed.
  Lemma stays_found rel l k : leads_to (h_os H k) l0 rel l -> resolve (h_os H k) (path_string l) = At l.
  Proof.
    intros K. apply real_resolve. eapply leads_real; [|exact K]. exact (proj1 (settled_dir H _ l0 HS k)).
  Qed.

  (** Files only fade away. *)
  Lemma fades_walk o o' : fades o o' -> forall n l cs m, walk (os_fs o') n l cs = At m -> walk (os_fs o) n l cs = At m.
  Proof.
    intros [_ F] n l cs m E. apply walk_resolves. apply walk_resolves in E.
    assert (FD : forall x y, os_fs o' x = Some (EDir y) -> os_fs o x = Some (EDir y)).
    { intros x y Ex. destruct (F x) as [<-|(_ & [K|(a & b & c & K)])]; congruence. }
    assert (FL : forall x y, os_fs o' x = Some (ELink y) -> os_fs o x = Some (ELink y)).
    { intros x y Ex. destruct (F x) as [<-|(_ & [K|(a & b & c & K)])]; congruence. }
    induction E as [|n l x cs m Hd E IH|n l cs m Hd E IH|n l cs m Hd E IH|n l c cs m e Hd N1 N2 N3 Hc He E IH|n l c cs m t Hd N1 N2 N3 Hc E IH].
    - constructor.
    - econstructor; eauto.
    - constructor; eauto.
    - constructor; eauto.
    - destruct (F (l ++ [c])) as [K|((a & b & d & K) & _)].
      + eapply resolves_name; eauto. now rewrite <- K.
      + eapply resolves_name; eauto. now intros t [=].
    - eapply resolves_link; eauto.
  Qed.
  Hypothesis HF : forall i j, (i <= j)%nat -> fades (h_os H i) (h_os H j).
  Lemma fading_walk i j cs m : (i <= j)%nat -> wk j [] cs = At m -> wk i [] cs = At m.
  Proof. intros Hij E. pose proof (HF i j Hij) as F. rewrite <- (proj1 F). exact (fades_walk _ _ F _ _ _ _ E). Qed.
  Lemma fading_file i j l : (i <= j)%nat -> is_file (fsk j l) -> is_file (fsk i l).
  Proof. intros Hij E. destruct (proj2 (HF i j Hij) l) as [K|(K & _)]; [now rewrite <- K|exact K]. Qed.
  Lemma fading_odd i j l : (i <= j)%nat -> is_file (fsk i l) -> is_odd (fsk j l) -> False.
  Proof.
    intros Hij E O. destruct (proj2 (HF i j Hij) l) as [K|(_ & [K|(a & b & c & K)])].
    - rewrite K in O. destruct E as (a & b & c & E), O as [[x O]|O]; congruence.
    - destruct O as [[x O]|O]; congruence.
    - destruct O as [[x O]|O]; congruence.
  Qed.

  Lemma fading_in p head rel r : asks (st_prefix h) p rel -> ~ In dotdot (elements rel) ->
    static_handle_in H h p head = Ret r -> rs_status r = 200 ->
    exists k l, below l0 l /\ leads_to (h_os H k) l0 rel l /\ taken_from H head l r.
  Proof.
    intros Ha Hd E Hs. rewrite (handle_in_eq H h p head rel Ha) in E.
    destruct (sanitize_path_in H (st_root h) rel) as [[s k]|] eqn:Es; [|injection E as <-; discriminate].
    destruct (sanitize_in_some H _ l0 HS rel s k Es) as (full & -> & Hb & Ew).
    pose proof (full_shape rel full k Ew) as Sh.
    assert (Hcl : clean full) by (destruct Sh as (ns & t & -> & N & T); now apply shape_clean).
    assert (RC : forall m, resolve (h_os H m) (path_string full) = wk m [] (cut full)).
    { intros m. apply resolve_cut; [|exact Hcl]. exact (proj2 (proj2 (settled_dir H _ l0 HS m))). }
    destruct (response_made H k (path_string full) head) as [(r' & E' & D)|(_ & Hf & l & x & El & Hod & _)].
    - rewrite E in E'. injection E' as <-. destruct D as [->|[->|(_ & _ & m & l & Hkm & Er & Hf & Ht)]]; try discriminate Hs.
      rewrite RC in Er. pose proof (append_clean_in H _ l0 HS rel) as Hp.
      destruct (weakly_in_spec H _ l0 HS 5 _ _ _ Hp Ew) as [(j & Hj & W)|(a & c & rest & L & i & j & Hi & Hj & E1 & EL & HL & Em & Efull)].
      + exists j, l. apply (fading_walk j) in Er; [|lia]. destruct (settled_dir H _ l0 HS j) as (R0 & D0 & DD).
        assert (Hr : real_place (fsk j) full) by (eapply walk_real; [apply real_nil|apply cut_parts, clean_parts; exact Hp|exact W]).
        pose proof (real_resolve _ _ Hr) as K. rewrite RC, Er in K. injection K as <-. split; [exact Hb|]. split; [|exact Ht].
        unfold leads_to. apply walk_resolves. rewrite <- append_walk by auto. exact W.
      + exfalso. apply (fading_walk i) in Er; [|lia]. apply (fading_walk i) in EL; [|lia].
        destruct (settled_dir H _ l0 HS i) as (R0 & D0 & DD).
        assert (Hz : Forall (fun c => ~ In 0 c) a /\ cut (a ++ [c]) = a ++ cut [c]).
        { destruct (cut_more a [c]) as [K|[_ K]]; [exact K|]. exfalso. unfold path, bytes in *. rewrite K, EL in Em. destruct Em; discriminate. }
        destruct Hz as [Hz Ec]. rewrite (cut_id a Hz) in EL. unfold path, bytes in *. rewrite Ec in Em.
        assert (Hdd : ~ In dotdot (c :: rest)).
        { intros K. assert (K2 : In dotdot (fs_append l0 rel)) by (rewrite E1; apply in_or_app; now right).
          pose proof (real_names _ _ R0) as Hn. rewrite Forall_forall in Hn.
          assert (Hnd : ~ In dotdot l0) by (intros K3; apply Hn in K3 as (_ & _ & K3 & _); easy).
          unfold fs_append in K2. destruct (absolute rel); [easy|].
          destruct rel as [|x rel]; [destruct l0; [easy|]|]; apply in_app_iff in K2 as [K2|K2]; try easy.
          now destruct K2 as [K2|[]]. }
        assert (HLi : real_place (fsk i) L).
        { eapply walk_real; [apply real_nil| |exact EL]. rewrite <- (cut_id a Hz). apply cut_parts, clean_parts. rewrite E1 in Hp. eapply clean_front; exact Hp. }
        destruct (missing_plain (h_os H i) a c rest L EL HLi DD Em Hdd) as [e Ee]. rewrite Efull in Er. unfold path, bytes in *. rewrite Ee in Er. discriminate.
    - exfalso. rewrite RC in El. apply (fading_walk k) in El; [|lia]. unfold entry_at in Hf. rewrite RC, El in Hf.
      exact (fading_odd k (S (S k)) l ltac:(lia) Hf Hod).
  Qed.
End Contained.
