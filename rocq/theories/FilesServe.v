(** Static file responses (C57-C61). *)
From Coq Require Import Permutation.
From Verif Require Import Base BaseLemmas Http FileSys Files SpecFiles SpecConn ConnTerm FilesProofs.

(** ** The request path *)
Lemma starts_with_app p s : starts_with (p ++ s) p = true.
Proof. induction p as [|c p IH]; [now destruct s|]. cbn. now rewrite Z.eqb_refl, IH. Qed.
Lemma starts_with_inv s : forall p, starts_with s p = true -> exists r, s = p ++ r.
Proof.
  induction s as [|c s IH]; intros [|d p] H; try (now exists []); try discriminate H; [now exists (c :: s)|].
  cbn in H. apply andb_true_iff in H as [H1 H2]. apply IH in H2 as [r ->]. exists r. cbn. f_equal. lia.
Qed.
Lemma before_query_app rel q : ~ In 63 rel -> q = [] \/ hd 0 q = 63 -> before_query (rel ++ q) = rel.
Proof.
  induction rel as [|c rel IH]; intros H Hq.
  - destruct Hq as [->|Hq]; [reflexivity|]. destruct q as [|d q]; [reflexivity|]. cbn in *. subst d. reflexivity.
  - cbn [app before_query]. destruct (Z.eqb_spec c 63) as [->|E]; [exfalso; apply H; now left|].
    f_equal. apply IH; [|auto]. intros K. apply H. now right.
Qed.
Lemma before_query_split s : exists q, s = before_query s ++ q /\ ~ In 63 (before_query s) /\ (q = [] \/ hd 0 q = 63).
Proof.
  induction s as [|c s (q & E & H & Hq)]; [exists []; auto|]. cbn [before_query].
  destruct (Z.eqb_spec c 63) as [->|E'].
  - exists (63 :: s). auto.
  - exists q. cbn [app]. split; [now rewrite <- E|]. split; [|auto]. intros [K|K]; [congruence|auto].
Qed.
Lemma absolute_starts s : starts_with s [SLASH] = absolute s.
Proof. destruct s as [|c s]; [reflexivity|]. cbn [starts_with absolute]. destruct s; rewrite andb_true_r; apply Z.eqb_sym. Qed.

Lemma asks_path h p rel : asks (st_prefix h) p rel -> get_relative_path h p = Ret rel.
Proof.
  intros H. unfold get_relative_path.
  assert (E : exists r, p = st_prefix h ++ r) by (destruct H; eauto; exists []; now rewrite app_nil_r).
  destruct E as [r E]. replace (lenZ p <? lenZ (st_prefix h)) with false
    by (symmetry; apply Z.ltb_ge; subst p; unfold lenZ; rewrite app_length; lia).
  rewrite E, skipn_app, skipn_all, Nat.sub_diag. cbn [app skipn].
  assert (HR : forall x, st_prefix h ++ r = st_prefix h ++ x -> r = x) by (intros x; apply app_inv_head).
  destruct H as [| |lead rel query Hl Hq Hqq H1 H2].
  - symmetry in E. rewrite <- (app_nil_r (st_prefix h)) in E at 2. apply HR in E as ->. reflexivity.
  - symmetry in E. apply HR in E as ->. reflexivity.
  - symmetry in E. apply HR in E as ->. clear HR.
    apply null_ne in H1. apply bytes_eqb_neq in H2. rewrite H1, H2. cbn [orb]. rewrite absolute_starts.
    destruct Hl as [->|[-> Ha]].
    + cbn [app absolute]. change (SLASH =? SLASH) with true. cbn [tl]. f_equal. now apply before_query_app.
    + cbn [app]. rewrite Ha. f_equal. now apply before_query_app.
Qed.
Lemma asks_some h p : static_matches h p = true -> exists rel, asks (st_prefix h) p rel.
Proof.
  intros H. apply starts_with_inv in H as [r ->].
  destruct (null r) eqn:E1; [apply null_eq in E1 as ->; rewrite app_nil_r; eexists; apply asks_index|].
  destruct (bytes_eqb r [SLASH]) eqn:E2; [apply bytes_eqb_eq in E2 as ->; eexists; apply asks_index_slash|].
  apply null_ne in E1. apply bytes_eqb_neq in E2. destruct (absolute r) eqn:E3.
  - destruct r as [|c r]; [easy|]. cbn in E3. apply Z.eqb_eq in E3 as ->.
    destruct (before_query_split r) as (q & E & H & Hq). exists (before_query r).
    replace (SLASH :: r) with ([SLASH] ++ before_query r ++ q) in * by (cbn; now rewrite <- E).
    apply asks_file; auto.
  - destruct (before_query_split r) as (q & E & H & Hq). exists (before_query r).
    replace r with ([] ++ before_query r ++ q) in E1, E2 by (symmetry; exact E).
    replace (st_prefix h ++ r) with (st_prefix h ++ [] ++ before_query r ++ q) by (cbn; now rewrite <- E).
    apply asks_file; auto. right. split; [auto|]. now rewrite <- E.
Qed.
(** ** Responses *)
Definition served_from (fs : filesystem) (head : bool) (l : location) (r : response) : Prop :=
  exists io b, fs l = Some (EFile true io b) /\ rs_body r = if head then [] else b.

Section Serve.
  Variable o : os.
  Notation fs := (os_fs o).
  Notation wk := (walk (os_fs o) (os_links o)).

  Lemma handle_eq h p head rel : asks (st_prefix h) p rel ->
    static_handle o h p head = Ret (match sanitize_path o (st_root h) rel with
                                    | None => Response 403 [] []
                                    | Some s => file_response o s head
                                    end).
  Proof.
    intros H. unfold static_handle. rewrite (asks_path h p rel H). cbn [obind]. now destruct (sanitize_path _ _ _).
  Qed.
  Lemma file_response_200 s head : rs_status (file_response o s head) = 200 ->
    exists l, resolve o s = At l /\ served_from fs head l (file_response o s head).
  Proof.
    unfold file_response, is_readable, get_response, head_response, read_file, get_file_size, served_from.
    destruct (resolve o s) as [l|e]; [|discriminate]. destruct (fs l) as [[[] io b|?|?|]|] eqn:El; try discriminate.
    destruct head.
    - intros _. exists l. split; [reflexivity|]. exists io, b. rewrite El. auto.
    - destruct io; [|discriminate]. intros _. exists l. split; [reflexivity|]. exists true, b. rewrite El. auto.
  Qed.

  Hypothesis Hcwd : real_place fs (os_cwd o).

  Lemma root_dir l0 : real_place fs l0 -> (exists x, fs l0 = Some (EDir x)) -> exists x, fs [] = Some (EDir x).
  Proof.
    intros H [x Hx]. destruct l0 as [|c l0]; [eauto|]. eapply real_root; [exact H|easy|exact Hx].
  Qed.

  Lemma real_resolve l : real_place fs l -> resolve o (path_string l) = At l.
  Proof.
    intros H. rewrite resolve_string by now apply real_clean in H. now rewrite <- (app_nil_r l) at 1; rewrite real_walk, walk_nil.
  Qed.
  Lemma leads_real l0 rel l : real_place fs l0 -> leads_to o l0 rel l -> real_place fs l.
  Proof.
    intros Hl H. unfold leads_to in H. apply walk_resolves in H.
    eapply walk_real; [|apply plain_parts, elements_plain, c_str_zero|exact H]. destruct (absolute rel); [apply real_nil|exact Hl].
  Qed.
  Lemma contained h p head rel r l0 : asks (st_prefix h) p rel -> root_at o (st_root h) l0 ->
    static_handle o h p head = Ret r -> rs_status r = 200 ->
    (forall l, leads_to o l0 rel l -> below l0 l /\ served_from fs head l r) /\
    (~ In dotdot (elements rel) -> exists l, leads_to o l0 rel l) /\
    ((forall rest t, fs (l0 ++ rest) <> Some (ELink t)) -> exists l, below l0 l /\ served_from fs head l r).
  Proof.
    intros Ha Hr E Hs. rewrite (handle_eq h p head rel Ha) in E.
    pose proof Hr as (_ & _ & Hx & _). destruct (root_status o Hcwd _ l0 Hr) as (_ & _ & _ & _ & Hl).
    destruct (sanitize_path o (st_root h) rel) as [s|] eqn:Es; [|injection E as <-; discriminate].
    injection E as <-. destruct (file_response_200 _ _ Hs) as (l & El & Hsf).
    destruct (sanitized o Hcwd _ l0 rel s Hr Es) as (full & -> & Hb & H0 & Hcase).
    assert (Hbl : forall m, leads_to o l0 rel m -> below l0 m /\ served_from fs head m (file_response o (path_string full) head)).
    { intros m Hm. destruct Hcase as [Hf|(r & c & rest & L & E1 & E1z & E2 & E3 & E4 & E5)].
      - assert (m = full) by (apply walk_resolves in Hm, Hf; congruence). subst m. split; [auto|].
        rewrite real_resolve in El by exact (leads_real _ _ _ Hl Hf). injection El as <-. exact Hsf.
      - exfalso. unfold leads_to in Hm. apply walk_resolves in Hm.
        rewrite <- (append_walk o l0 rel) in Hm by auto. rewrite E1 in Hm.
        rewrite (cut_app r) in Hm by exact E1z. change (c :: rest) with ([c] ++ rest) in Hm. destruct (cut_front [c] rest) as [b' Eb].
        unfold bytes in *. rewrite Eb, app_assoc in Hm.
        destruct E4 as [E4|E4]; pose proof (eq_trans (eq_sym (walk_err_app _ _ _ _ _ E4 b')) Hm) as K; discriminate K. }
    assert (Hclean : forall r c rest L, fs_append l0 rel = r ++ c :: rest -> real_place fs L ->
      exists ns t, lexically_normal (L ++ c :: rest) = ns ++ t /\ Forall named ns /\ tail_ok ns t).
    { intros r c rest L E1 E3. apply normal_shape; [|constructor]. pose proof (append_clean o l0 rel Hl) as Hp. rewrite E1 in Hp.
      apply clean_parts in Hp. apply Forall_app in Hp as [_ Hp]. apply Forall_app. split; [|exact Hp].
      apply clean_parts. exact (proj1 (real_clean _ _ E3)). }
    split; [exact Hbl|]. split.
    - intros Hd. destruct Hcase as [Hf|(r & c & rest & L & E1 & E1z & E2 & E3 & E4 & E5)]; [eauto|exfalso].
      assert (Hdd : ~ In dotdot (c :: rest)).
      { intros K. assert (K2 : In dotdot (fs_append l0 rel)) by (rewrite E1; apply in_or_app; now right).
        pose proof (real_names _ _ Hl) as Hn. rewrite Forall_forall in Hn.
        assert (Hnd : ~ In dotdot l0) by (intros K3; apply Hn in K3 as (_ & _ & K3 & _); easy).
        unfold fs_append in K2. destruct (absolute rel); [easy|].
        destruct rel as [|x rel]; [destruct l0; [easy|]|]; apply in_app_iff in K2 as [K2|K2]; try easy.
        now destruct K2 as [K2|[]]. }
      destruct (missing_plain o r c rest L E2 E3 (root_dir l0 Hl Hx) E4 Hdd) as [e Ee].
      destruct (Hclean r c rest L E1 E3) as (ns & t & En & Hns & Ht).
      rewrite resolve_cut in El; [|exact H0|subst full; rewrite En; now apply shape_clean]. rewrite E5, Ee in El. discriminate.
    - intros Hno. exists l. split; [|exact Hsf].
      destruct Hcase as [Hf|(r & c & rest & L & E1 & E1z & E2 & E3 & E4 & E5)].
      + rewrite real_resolve in El by exact (leads_real _ _ _ Hl Hf). injection El as <-. exact Hb.
      + destruct (Hclean r c rest L E1 E3) as (ns & t & En & Hns & Ht).
        rewrite resolve_cut in El; [|exact H0|subst full; rewrite En; now apply shape_clean].
        destruct (missing_no_links o l0 full l Hl Hx Hno) as [K|[x K]]; [exists ns, t; now rewrite E5|exact Hb|exact El|exact K|].
        exfalso. destruct Hsf as (io & b & Hsf & _). congruence.
  Qed.

  (** ** C58 *)
  Lemma found_answer h p head rel l0 l : asks (st_prefix h) p rel -> root_at o (st_root h) l0 ->
    leads_to o l0 rel l ->
    static_handle o h p head = Ret (if within l0 l then file_response o (path_string l) head else Response 403 [] []) /\
    resolve o (path_string l) = At l.
  Proof.
    intros Ha Hr Hl. rewrite (handle_eq h p head rel Ha).
    pose proof Hr as (_ & _ & Hx & _). destruct (root_status o Hcwd _ l0 Hr) as (_ & _ & _ & _ & Hl0).
    pose proof (leads_real _ _ _ Hl0 Hl) as Hrl. unfold leads_to in Hl. apply walk_resolves in Hl.
    pose proof (root_dir l0 Hl0 Hx) as Hy. rewrite <- (append_walk o l0 rel) in Hl by auto.
    destruct (real_entry _ _ Hrl ltac:(destruct Hy; congruence)) as [e He].
    unfold sanitize_path. rewrite (sanitize_eq o Hcwd _ l0 rel Hr).
    rewrite (weakly_cut o l _ e Hy (append_clean o l0 rel Hl0) Hl He). cbn [obind]. split; [now destruct (within l0 l)|].
    now apply real_resolve.
  Qed.
  Lemma found_outside h p head rel l0 l : asks (st_prefix h) p rel -> root_at o (st_root h) l0 ->
    leads_to o l0 rel l -> ~ below l0 l -> static_handle o h p head = Ret (Response 403 [] []).
  Proof.
    intros Ha Hr Hl Hn. destruct (found_answer h p head rel l0 l Ha Hr Hl) as [-> _].
    destruct (within l0 l) eqn:E; [|reflexivity]. now apply within_below in E.
  Qed.
  Lemma found_inside h p head rel l0 l : asks (st_prefix h) p rel -> root_at o (st_root h) l0 ->
    leads_to o l0 rel l -> below l0 l ->
    exists r, static_handle o h p head = Ret r /\
      match fs l with
      | Some (EFile true io b) =>
        if head then r = Response 200 [Hdr (str "content-length") (to_string (lenZ b)); Hdr (str "content-type") (get_mime_type (path_string l))] []
        else if io then r = Response 200 [Hdr (str "content-type") (get_mime_type (path_string l))] b
        else r = Response 500 [] []
      | _ => r = Response 404 [] []
      end.
  Proof.
    intros Ha Hr Hl Hn. destruct (found_answer h p head rel l0 l Ha Hr Hl) as [-> Hres].
    apply within_below in Hn. rewrite Hn. eexists. split; [reflexivity|].
    unfold file_response, is_readable, get_response, head_response, read_file, get_file_size. rewrite Hres.
    destruct (fs l) as [[[] io b|?|?|]|] eqn:El; try reflexivity. destruct head; [reflexivity|]. now destruct io.
  Qed.
  Lemma missing_answer h p head rel l0 r : asks (st_prefix h) p rel -> root_at o (st_root h) l0 ->
    ~ In dotdot (elements rel) -> (forall l, ~ leads_to o l0 rel l) -> static_handle o h p head = Ret r ->
    r = Response 403 [] [] \/ r = Response 404 [] [].
  Proof.
    intros Ha Hr Hd Hno E. pose proof E as E'. rewrite (handle_eq h p head rel Ha) in E. injection E as E.
    destruct (sanitize_path o (st_root h) rel) as [s|] eqn:Es; [|now left]. right.
    destruct (is_readable o s) eqn:Er; [exfalso|unfold file_response in E; rewrite Er in E; now symmetry].
    (* a HEAD request for it would have been answered with 200 *)
    assert (H200 : exists r', static_handle o h p true = Ret r' /\ rs_status r' = 200).
    { rewrite (handle_eq h p true rel Ha), Es. eexists. split; [reflexivity|]. unfold file_response. rewrite Er.
      unfold is_readable in Er. unfold head_response, get_file_size.
      destruct (resolve o s) as [l|]; [|discriminate]. destruct (fs l) as [[]|]; try discriminate. reflexivity. }
    destruct H200 as (r' & E1 & E2). destruct (contained h p true rel r' l0 Ha Hr E1 E2) as (_ & H & _).
    destruct (H Hd) as [l Hl]. now apply (Hno l).
  Qed.
  Lemma no_root h p head rel : ~ In 0 (st_root h) -> asks (st_prefix h) p rel -> (forall l0, ~ root_at o (st_root h) l0) ->
    static_handle o h p head = Ret (Response 403 [] []).
  Proof.
    intros Hz Ha Hno. rewrite (handle_eq h p head rel Ha).
    destruct (sanitize_path o (st_root h) rel) as [s|] eqn:Es; [exfalso|reflexivity].
    destruct (root_found o Hcwd _ _ _ Hz Es) as [l0 Hl]. now apply (Hno l0).
  Qed.
  Lemma handle_statuses h p head r : static_handle o h p head = Ret r ->
    rs_status r = 200 \/ r = Response 403 [] [] \/ r = Response 404 [] [] \/ r = Response 500 [] [].
  Proof.
    unfold static_handle. destruct (get_relative_path h p); try discriminate. cbn [obind].
    destruct (sanitize_path _ _ _); intros E; injection E as <-; auto.
    unfold file_response, get_response, head_response. destruct (is_readable _ _); auto.
    destruct head; [destruct (get_file_size _ _)|destruct (read_file _ _)]; auto.
  Qed.
End Serve.

(** ** C59 *)
Lemma value_positive s v : Forall (fun d => 48 <= d <= 57) s -> 0 <= v ->
  v <= fold_left (fun v d => 10 * v + (d - 48)) s v.
Proof.
  intros H. revert v. induction H as [|d s Hd _ IH]; intros v Hv; cbn [fold_left]; [lia|].
  specialize (IH (10 * v + (d - 48)) ltac:(lia)). lia.
Qed.
Lemma decimal_unique s : forall s' n, decimal s n -> decimal s' n -> s = s'.
Proof.
  assert (POS : forall p, Forall (fun d => 48 <= d <= 57) p -> p <> [] -> hd 0 p <> 48 ->
    0 < fold_left (fun v d => 10 * v + (d - 48)) p 0).
  { intros [|d p] H Hne Hh; [easy|]. apply Forall_cons_iff in H as [Hd H]. cbn [fold_left hd] in *.
    pose proof (value_positive p (10 * 0 + (d - 48)) H ltac:(lia)). lia. }
  assert (NN : forall p, Forall (fun d => 48 <= d <= 57) p -> 0 <= fold_left (fun v d => 10 * v + (d - 48)) p 0).
  { intros p H. apply value_positive; auto. lia. }
  (* numerals without a leading zero, or empty *)
  assert (U : forall p p', Forall (fun d => 48 <= d <= 57) p -> Forall (fun d => 48 <= d <= 57) p' ->
    (p <> [] -> hd 0 p <> 48) -> (p' <> [] -> hd 0 p' <> 48) ->
    fold_left (fun v d => 10 * v + (d - 48)) p 0 = fold_left (fun v d => 10 * v + (d - 48)) p' 0 -> p = p').
  { induction p as [|d p IH] using rev_ind; intros p' H H' N N' E.
    - destruct p' as [|d' p']; [reflexivity|]. specialize (POS (d' :: p') H' ltac:(easy) (N' ltac:(easy))). cbn in E, POS. lia.
    - destruct p' as [|d' p' _] using rev_ind.
      { specialize (POS (p ++ [d]) H ltac:(now destruct p) (N ltac:(now destruct p))). rewrite E in POS. cbn in POS. lia. }
      rewrite !fold_left_app in E. cbn [fold_left] in E.
      apply Forall_app in H as [H Hd]. apply Forall_app in H' as [H' Hd'].
      apply Forall_cons_iff in Hd as [Hd _]. apply Forall_cons_iff in Hd' as [Hd' _].
      assert (d = d') by lia. subst d'. f_equal. apply IH; auto; try lia.
      + intros Hne. destruct p; [easy|]. now apply N.
      + intros Hne. destruct p'; [easy|]. now apply N'. }
  intros s' n (H1 & H2 & H3) (H1' & H2' & H3').
  destruct s as [|d s]; [easy|]. destruct s' as [|d' s']; [easy|].
  destruct (Z.eq_dec d 48) as [->|N].
  - rewrite (H3 eq_refl) in *. cbn in H2. destruct (Z.eq_dec d' 48) as [->|N']; [now rewrite (H3' eq_refl)|].
    specialize (POS (d' :: s') H1' ltac:(easy) N'). lia.
  - destruct (Z.eq_dec d' 48) as [->|N'].
    + rewrite (H3' eq_refl) in *. cbn in H2'. specialize (POS (d :: s) H1 ltac:(easy) N). lia.
    + apply U; auto. congruence.
Qed.

Lemma head_mirrors o (Hcwd : real_place (os_fs o) (os_cwd o)) h p rel l0 l b rg rh fg fh :
  asks (st_prefix h) p rel -> root_at o (st_root h) l0 -> leads_to o l0 rel l ->
  os_fs o l = Some (EFile true true b) -> b <> [] ->
  static_handle o h p false = Ret rg -> static_handle o h p true = Ret rh ->
  response_fields rg fg -> response_fields rh fh ->
  rs_status rh = rs_status rg /\ rs_body rh = [] /\ Permutation fh fg.
Proof.
  intros Ha Hr Hl Hf Hb Eg Eh (sg & lg & -> & Dg & Lg0 & Lg) (sh & lh & -> & Dh & Lh & _).
  destruct (within l0 l) eqn:Ew.
  - apply within_below in Ew.
    destruct (found_inside o Hcwd h p false rel l0 l Ha Hr Hl Ew) as (r1 & E1 & R1).
    destruct (found_inside o Hcwd h p true rel l0 l Ha Hr Hl Ew) as (r2 & E2 & R2).
    rewrite Hf in R1, R2. rewrite Eg in E1. rewrite Eh in E2. injection E1 as <-. injection E2 as <-. subst rg rh.
    cbn [rs_status rs_headers rs_body] in *. rewrite (Lh eq_refl). destruct (Lg Hb) as (n & Dn & ->).
    rewrite (decimal_unique _ _ _ Dh Dg). split; [reflexivity|]. split; [reflexivity|].
    assert (n = to_string (lenZ b)) as ->.
    { eapply decimal_unique; [exact Dn|]. apply to_string_spec. unfold lenZ. lia. }
    constructor. cbn [app]. constructor 3.
  - assert (Hn : ~ below l0 l) by (intros K; apply within_below in K; congruence).
    rewrite (found_outside o Hcwd h p false rel l0 l Ha Hr Hl Hn) in Eg.
    rewrite (found_outside o Hcwd h p true rel l0 l Ha Hr Hl Hn) in Eh.
    injection Eg as <-. injection Eh as <-. cbn [rs_status rs_headers rs_body] in *. split; [auto|]. split; [auto|].
    rewrite (Lh eq_refl), (Lg0 eq_refl). now rewrite (decimal_unique _ _ _ Dh Dg).
Qed.

(** ** C60 *)
Lemma query_ignored o h p head rel query : asks (st_prefix h) p rel ->
  p <> st_prefix h -> p <> st_prefix h ++ [SLASH] ->
  static_handle o h (p ++ 63 :: query) head = static_handle o h p head.
Proof.
  intros H H1 H2. rewrite (handle_eq o h p head rel H), (handle_eq o h _ head rel); [reflexivity|].
  destruct H as [| |lead rel q Hl Hq Hqq Hne Hsl]; [easy|easy|].
  replace ((st_prefix h ++ lead ++ rel ++ q) ++ 63 :: query) with (st_prefix h ++ lead ++ rel ++ q ++ 63 :: query)
    by now rewrite !app_assoc.
  apply asks_file; auto.
  - destruct Hl as [->|[-> Ha]]; [now left|]. right. split; [auto|]. destruct rel; [|exact Ha].
    destruct q; [exfalso; now apply Hne|exact Ha].
  - right. destruct Hqq as [->|Hh]; [reflexivity|]. now destruct q.
  - intros E. destruct lead; [|easy]. destruct rel; [|easy]. now destruct q.
  - intros E. assert (K : length (lead ++ rel ++ q ++ 63 :: query) = 1%nat) by now rewrite E.
    rewrite !app_length in K. cbn in K. apply Hne. destruct lead, rel, q; cbn in *; try reflexivity; lia.
Qed.
Lemma query_index o (Hcwd : real_place (os_fs o) (os_cwd o)) h p head query l0 :
  p = st_prefix h \/ p = st_prefix h ++ [SLASH] -> root_at o (st_root h) l0 ->
  static_handle o h (p ++ 63 :: query) head = Ret (Response 404 [] []).
Proof.
  intros Hp Hr. assert (Ha : asks (st_prefix h) (p ++ 63 :: query) []).
  { destruct Hp as [->| ->]; rewrite <- ?app_assoc.
    - apply (asks_file (st_prefix h) [] [] (63 :: query)); auto; try easy.
    - apply (asks_file (st_prefix h) [SLASH] [] (63 :: query)); auto; easy. }
  rewrite (handle_eq o h _ head [] Ha).
  pose proof Hr as (_ & _ & [x Hx] & _). destruct (root_status o Hcwd _ l0 Hr) as (_ & _ & _ & _ & Hl0).
  unfold sanitize_path. rewrite (sanitize_eq o Hcwd _ l0 [] Hr).
  rewrite (weakly_cut o l0 _ (EDir x) (root_dir o l0 Hl0 ltac:(eauto)) (append_clean o l0 [] Hl0)).
  - cbn [obind]. replace (within l0 l0) with true by (symmetry; apply within_below; exists []; now rewrite app_nil_r).
    unfold file_response, is_readable. rewrite resolve_string by now apply real_clean in Hl0.
    rewrite <- (app_nil_r l0), real_walk, walk_nil, app_nil_r, Hx by (now rewrite ?app_nil_r). reflexivity.
  - rewrite append_walk by (eauto; eapply root_dir; eauto). apply walk_nil.
  - exact Hx.
Qed.

(** ** C61 *)
Lemma mime_table : mime_types = map (fun x : bytes * bytes => (DOT :: fst x : bytes, snd x)) known_types.
Proof. reflexivity. Qed.
Lemma from_last_dot_some s : forall a e, s = a ++ DOT :: e -> ~ In DOT e -> from_last_dot s = Some (DOT :: e).
Proof.
  assert (K : forall e, ~ In DOT e -> from_last_dot e = None).
  { induction e as [|c e IH]; intros H; [reflexivity|]. cbn [from_last_dot]. rewrite IH by (intros K; apply H; now right).
    destruct (Z.eqb_spec c DOT) as [->|]; [exfalso; apply H; now left|reflexivity]. }
  induction s as [|c s IH]; intros a e E H; [now destruct a|]. cbn [from_last_dot]. destruct a as [|d a].
  - injection E as -> ->. now rewrite K.
  - injection E as <- E. now rewrite (IH a e).
Qed.
Lemma from_last_dot_none s : ~ In DOT s -> from_last_dot s = None.
Proof.
  induction s as [|c e IH]; intros H; [reflexivity|]. cbn [from_last_dot]. rewrite IH by (intros K; apply H; now right).
  destruct (Z.eqb_spec c DOT) as [->|]; [exfalso; apply H; now left|reflexivity].
Qed.
Lemma last_dot s : ~ In DOT s \/ exists a e, s = a ++ DOT :: e /\ ~ In DOT e.
Proof.
  induction s as [|c s [IH|(a & e & -> & H)]]; [now left| |right; now exists (c :: a), e].
  destruct (Z.eq_dec c DOT) as [->|N]; [right; now exists [], s|left; intros [K|K]; auto].
Qed.
Lemma dot_last_unique : forall a e a' e' : bytes, a ++ DOT :: e = a' ++ DOT :: e' -> ~ In DOT e -> ~ In DOT e' -> e = e'.
Proof.
  intros a e a' e' E H H'. pose proof (from_last_dot_some _ a e eq_refl H) as K.
  rewrite (from_last_dot_some _ a' e' E H') in K. now injection K.
Qed.
Lemma mime_find (e : bytes) : find (fun x => bytes_eqb (fst x) (DOT :: e)) mime_types =
  option_map (fun x : bytes * bytes => (DOT :: fst x : bytes, snd x)) (find (fun x => bytes_eqb (fst x) e) known_types).
Proof.
  rewrite mime_table. induction known_types as [|x l IH]; [reflexivity|]. cbn [map find fst].
  destruct (bytes_eqb (fst x) e) eqn:E1; match goal with |- context [if ?b then _ else _] => destruct b eqn:E2 end; [reflexivity| | |exact IH].
  - apply bytes_eqb_eq in E1. apply bytes_eqb_neq in E2. congruence.
  - apply bytes_eqb_eq in E2. apply bytes_eqb_neq in E1. congruence.
Qed.
Lemma known_unique e t t' : In (e, t) known_types -> In (e, t') known_types -> t = t'.
Proof.
  assert (H : NoDup (map fst known_types)).
  { unfold known_types. cbn [map fst snd]. repeat (constructor; [cbv; intuition discriminate|]). constructor. }
  induction known_types as [|x l IH]; [easy|]. cbn [map] in H. apply NoDup_cons_iff in H as [H1 H2].
  intros [->|K] [E|K']; auto.
  - now injection E.
  - exfalso. apply H1. exact (in_map fst _ _ K').
  - subst x. exfalso. apply H1. exact (in_map fst _ _ K).
Qed.
Lemma mime_dot s a e : s = a ++ DOT :: e -> ~ In DOT e -> forall t, In (e, t) known_types -> get_mime_type s = t.
Proof.
  intros E H t Ht. unfold get_mime_type. rewrite (from_last_dot_some s a e E H), mime_find.
  destruct (find _ known_types) as [[e' t']|] eqn:F.
  - apply find_some in F as [F1 F2]. cbn [fst] in F2. apply bytes_eqb_eq in F2 as ->. cbn. eapply known_unique; eauto.
  - exfalso. apply (find_none _ _ F) in Ht. cbn [fst] in Ht. now apply bytes_eqb_neq in Ht.
Qed.
Lemma mime_other s a e : s = a ++ DOT :: e -> ~ In DOT e -> (forall t, ~ In (e, t) known_types) -> get_mime_type s = octet_stream.
Proof.
  intros E H Hn. unfold get_mime_type. rewrite (from_last_dot_some s a e E H), mime_find.
  destruct (find _ known_types) as [[e' t']|] eqn:F; [|reflexivity].
  apply find_some in F as [F1 F2]. cbn [fst] in F2. apply bytes_eqb_eq in F2 as ->. exfalso. now apply (Hn t').
Qed.
Lemma known_no_slash e t : In (e, t) known_types -> ~ In SLASH e.
Proof.
  assert (H : forallb (fun x => forallb (fun c => negb (c =? SLASH)) (fst x)) known_types = true) by reflexivity.
  rewrite forallb_forall in H. intros K. apply H in K. rewrite forallb_forall in K. intros K'. apply K in K'. easy.
Qed.
(** The type depends on the name alone, whatever directories it is in. *)
Lemma mime_name (d : path) (n : bytes) t : ~ In SLASH n -> type_of_name n t -> get_mime_type (path_string (d ++ [n])) = t.
Proof.
  intros Hs H. assert (E : exists pre, path_string (d ++ [n]) = pre ++ SLASH :: n).
  { exists (flat_map (fun c => SLASH :: c) d). unfold path_string.
    destruct (d ++ [n]) eqn:E; [now destruct d|]. rewrite <- E, flat_map_app. cbn. now rewrite app_nil_r. }
  destruct E as [pre ->]. destruct H as [a e t -> H Ht|Hu].
  - eapply mime_dot; [|exact H|exact Ht]. now rewrite app_comm_cons, app_assoc.
  - destruct (last_dot (pre ++ SLASH :: n)) as [Hn|(a & e & E & H)].
    + unfold get_mime_type. now rewrite from_last_dot_none.
    + eapply mime_other; [exact E|exact H|]. intros t Ht.
      assert (Hse : ~ In SLASH e) by (eapply known_no_slash; eauto).
      (* the last dot is within the name *)
      assert (K : exists a', n = a' ++ DOT :: e).
      { clear -E Hs Hse. revert pre E. induction a as [|x a IH]; intros pre E.
        - destruct pre as [|y pre]; [discriminate|]. injection E as -> E. exfalso. apply Hse. rewrite <- E.
          apply in_or_app. right. now left.
        - destruct pre as [|y pre].
          + injection E as _ ->. now exists a.
          + injection E as _ E. now apply (IH pre). }
      destruct K as [a' K]. now apply (Hu a' e t).
Qed.
