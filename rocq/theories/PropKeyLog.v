(** The log of TLS secrets (C118). *)
From Verif Require Import Base BaseLemmas KeyLog.

(** ** C118.  Secrets of TLS connections are written to the file that the environment names,
    if it names one, and nowhere else.

    [keylogs env lines f]: the files after the library handed over [lines], with [env] the
    value of SSLKEYLOGFILE.  Without it no file changes. *)
Theorem C118_unset : forall lines f n, keylogs None lines f n = f n.
Proof. intros lines. induction lines as [|line lines IH]; intros f n; [reflexivity|]. cbn. apply IH. Qed.
Print Assumptions C118_unset.

Lemma keylog_at name line f n : keylog (Some name) line f n = if bytes_eqb n name then match f n with Some c => Some (c ++ line ++ [10]) | None => None end else f n.
Proof.
  cbn [keylog]. destruct (f name) as [c|] eqn:E; [reflexivity|]. destruct (bytes_eqb n name) eqn:En; [|reflexivity].
  apply bytes_eqb_eq in En. subst. now rewrite E.
Qed.

(** No other file changes, and this one only grows: by all the lines, in their order, each
    ended by a newline. *)
Theorem C118_others : forall name lines f n, n <> name -> keylogs (Some name) lines f n = f n.
Proof.
  intros name lines. induction lines as [|line lines IH]; intros f n H; [reflexivity|]. cbn [keylogs fold_left]. unfold keylogs in IH. rewrite IH by exact H.
  rewrite keylog_at. destruct (bytes_eqb n name) eqn:E; [|reflexivity]. apply bytes_eqb_eq in E. contradiction.
Qed.
Print Assumptions C118_others.
Theorem C118_written : forall name lines f before, f name = Some before ->
  keylogs (Some name) lines f name = Some (before ++ concat (map (fun line => line ++ [10]) lines)).
Proof.
  intros name lines. induction lines as [|line lines IH]; intros f before H; cbn [keylogs fold_left map concat]; [now rewrite app_nil_r|].
  unfold keylogs in IH. rewrite (IH _ (before ++ line ++ [10])); [now rewrite <- !app_assoc|].
  rewrite keylog_at. rewrite (proj2 (bytes_eqb_eq name name) eq_refl). now rewrite H.
Qed.
Print Assumptions C118_written.
(** A file that cannot be opened is passed over in silence. *)
Theorem C118_not_opened : forall name lines f n, f name = None -> keylogs (Some name) lines f n = f n.
Proof.
  intros name lines f n H. enough (G : keylogs (Some name) lines f = f) by now rewrite G.
  induction lines as [|line lines IH]; [reflexivity|]. cbn [keylogs fold_left keylog]. rewrite H. exact IH.
Qed.
Print Assumptions C118_not_opened.

(** The lines can be told apart again: two sequences of lines without newlines that leave
    the same file are the same. *)
Theorem C118_readable : forall name lines lines' f before, f name = Some before ->
  Forall (fun line => ~ In 10 line) lines -> Forall (fun line => ~ In 10 line) lines' ->
  keylogs (Some name) lines f name = keylogs (Some name) lines' f name -> lines = lines'.
Proof.
  intros name lines lines' f before H H1 H2 E. rewrite !(C118_written name _ f before H) in E. injection E as E. apply app_inv_head in E.
  revert lines' H2 E. induction H1 as [|x l Hx Hl IH]; intros [|y l'] H2 E; [reflexivity|..].
  - exfalso. cbn in E. destruct y; discriminate.
  - exfalso. cbn in E. destruct x; discriminate.
  - inversion H2 as [|? ? Hy Hl']; subst. cbn [map concat] in E. rewrite <- !app_assoc in E.
    assert (G : x = y /\ concat (map (fun line => line ++ [10]) l) = concat (map (fun line => line ++ [10]) l')).
    { clear -Hx Hy E. revert y Hy E. induction x as [|c x IH]; intros [|d y] Hy E; cbn in E.
      - injection E as E. now split.
      - injection E as <- _. elim Hy. now left.
      - injection E as -> _. elim Hx. now left.
      - injection E as -> E. destruct (IH (fun K => Hx (or_intror K)) y (fun K => Hy (or_intror K)) E) as [-> K]. now split. }
    destruct G as [-> G]. f_equal. now apply IH.
Qed.
Print Assumptions C118_readable.

Example C118_case :
  let f := fun n => if bytes_eqb n (str "/tmp/keys") then Some (str "# keys" ++ [10]) else if bytes_eqb n (str "/etc/shadow") then None else Some [] in
  let lines := [str "SERVER_HANDSHAKE_TRAFFIC_SECRET 01 ab"; str "EXPORTER_SECRET 01 cd"] in
  f (str "/tmp/keys") = Some (str "# keys" ++ [10]) /\ Forall (fun line => ~ In 10 line) lines /\
  keylogs (Some (str "/tmp/keys")) lines f (str "/tmp/keys") =
    Some (str "# keys" ++ [10] ++ str "SERVER_HANDSHAKE_TRAFFIC_SECRET 01 ab" ++ [10] ++ str "EXPORTER_SECRET 01 cd" ++ [10]) /\
  f (str "/etc/shadow") = None /\ keylogs (Some (str "/etc/shadow")) lines f (str "/tmp/keys") = Some (str "# keys" ++ [10]).
Proof.
  repeat split. repeat constructor; intros K; vm_compute in K; repeat (destruct K as [K|K]; [discriminate K|]); destruct K.
Qed.
