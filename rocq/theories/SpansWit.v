(** Running traced connections; the marks of console lines. *)
From Verif Require Import Base BaseLemmas Huffman DynTable Http Conn SpecFrames SpecConn AccessLog Messages SpecMessages Spans SpecSpans SpansProofs.

Section Run.
  Context {W : Type}.
  Variable app : request -> W -> W * app_answer.
  Variable cs : bool.
  Variable T : tree.
  Variable app_says : request -> W -> list message.
  Variable thrown : request -> W -> bytes.
  Variable unhandled : conn -> W -> bytes.
  Variable ip : bytes.
  Variable others : W -> W -> Prop.
  Variable t0 : Z.
  Variable w0 : W.

  Fixpoint run_traced (ss : list scripts) (r : option result) (c : conn) (tr : trace) (w : W) (ps : list passage)
      : out (option result * conn * trace * W * list passage) :=
    match ss with
    | [] => Ret (r, c, tr, w, ps)
    | s :: ss' =>
      match r with
      | Some DiscardConnection => Throw
      | _ =>
        match process W app cs T s c w with
        | Ret (r', c', ev, w') => run_traced ss' (Some r') c' (tr ++ ev) w' (ps ++ process_passages W app cs T app_says thrown unhandled ip s c w)
        | _ => Throw
        end
      end
    end.
  Lemma run_traced_traced (A : scripts -> Prop) ss : Forall scripts_ok ss -> Forall A ss -> forall r c tr w ps r' c' tr' w' ps',
    traced W app cs T app_says thrown unhandled ip others t0 w0 A r c tr w ps -> run_traced ss r c tr w ps = Ret (r', c', tr', w', ps') ->
    traced W app cs T app_says thrown unhandled ip others t0 w0 A r' c' tr' w' ps'.
  Proof.
    induction ss as [|s ss IH]; intros H1 H2 r c tr w ps r' c' tr' w' ps' HN E; cbn [run_traced] in E.
    - now injection E as <- <- <- <- <-.
    - inversion H1; inversion H2; subst.
      destruct (process W app cs T s c w) as [[[[r1 c1] ev1] w1]| | |] eqn:Ep; try (destruct r as [[]|]; discriminate E).
      assert (Hr : r <> Some DiscardConnection) by (intros ->; discriminate E).
      eapply IH; [assumption|assumption| |].
      + eapply traced_process; eauto.
      + destruct r as [[]|]; try exact E. now destruct Hr.
  Qed.
  Lemma by_traced (A : scripts -> Prop) ss r (Phi : conn -> trace -> W -> list passage -> Prop) : Forall scripts_ok ss -> Forall A ss ->
    match run_traced ss None (fresh_conn t0) [] w0 [] with Ret (r', c, tr, w, ps) => r' = r /\ Phi c tr w ps | _ => False end ->
    exists c tr w ps, traced W app cs T app_says thrown unhandled ip others t0 w0 A r c tr w ps /\ Phi c tr w ps.
  Proof.
    intros H1 H2. destruct (run_traced ss None (fresh_conn t0) [] w0 []) as [[[[[r' c] tr] w] ps]| | |] eqn:E; try easy.
    intros [-> HP]. exists c, tr, w, ps. split; [|exact HP]. eapply run_traced_traced; eauto. constructor.
  Qed.
End Run.

(** ** Marks *)
Lemma telemetry_on_spec env : telemetry_on env = true <-> env <> Some (str "true").
Proof.
  unfold telemetry_on. destruct env as [v|]; [|easy]. destruct (bytes_eqb v (str "true")) eqn:E; cbn.
  - apply bytes_eqb_eq in E as ->. split; [discriminate|]. now intros [].
  - apply bytes_eqb_neq in E. split; [|reflexivity]. intros _ H. apply E. now injection H.
Qed.
Lemma marks_app : forall a b ids, (length (passage_spans a) <= length ids)%nat ->
  passage_marks ids (a ++ b) = passage_marks (firstn (length (passage_spans a)) ids) a ++ passage_marks (skipn (length (passage_spans a)) ids) b.
Proof.
  induction a as [|[m|s ms] a IH]; intros b ids H; cbn [passage_marks List.app passage_spans flat_map length] in *.
  - reflexivity.
  - f_equal. apply IH. exact H.
  - destruct ids as [|i ids]; [cbn in H; lia|]. cbn [firstn skipn hd tl length] in *. rewrite <- app_assoc. f_equal. apply IH.
    fold (passage_spans a) in H. lia.
Qed.
Lemma marks_length : forall ps ids, length (passage_marks ids ps) = length (passage_messages ps).
Proof.
  induction ps as [|[m|s ms] ps IH]; intros ids; cbn [passage_marks passage_messages flat_map]; [reflexivity| |].
  - cbn [length List.app]. f_equal. apply IH.
  - rewrite !app_length, repeat_length. f_equal. apply IH.
Qed.
Lemma console_app l : forall m1 ms1 m2 ms2, length m1 = length ms1 -> console l (m1 ++ m2) (ms1 ++ ms2) = console l m1 ms1 ++ console l m2 ms2.
Proof.
  induction m1 as [|[s t] m1 IH]; intros [|x ms1] m2 ms2 H; try discriminate H; [reflexivity|].
  cbn [List.app console]. rewrite <- app_assoc. f_equal. apply IH. now injection H.
Qed.
Lemma combine_app {A B} : forall (a1 a2 : list A) (b1 b2 : list B), length a1 = length b1 -> combine (a1 ++ a2) (b1 ++ b2) = combine a1 b1 ++ combine a2 b2.
Proof. induction a1 as [|x a1 IH]; intros a2 [|y b1] b2 H; try discriminate H; [reflexivity|]. cbn. f_equal. apply IH. now injection H. Qed.
Lemma combine_repeat {A B} (y : B) : forall a : list A, combine a (repeat y (length a)) = map (fun x => (x, y)) a.
Proof. induction a; [reflexivity|]. cbn. now f_equal. Qed.

Lemma console_passage l env ids stamps a p b : env <> Some (str "true") ->
  length ids = length (passage_spans (a ++ p :: b)) -> length stamps = length (passage_messages (a ++ p :: b)) ->
  exists x y ts,
    console l (combine stamps (trace_marks env ids (a ++ p :: b))) (passage_messages (a ++ p :: b)) =
      x ++ console l (map (fun t => (t, match p with Outside _ => [] | Inside _ _ => str "[" ++ nth (length (passage_spans a)) ids [] ++ str "] " end)) ts)
             (passage_messages [p]) ++ y /\
    length ts = length (passage_messages [p]) /\
    (x = console l (combine (firstn (length (passage_messages a)) stamps) (trace_marks env (firstn (length (passage_spans a)) ids) a)) (passage_messages a)).
Proof.
  intros He Hi Hs. unfold trace_marks. apply telemetry_on_spec in He. rewrite He.
  change (p :: b) with ([p] ++ b) in *. rewrite !passage_messages_app in *. rewrite !passage_spans_app in *. rewrite !app_length in *.
  rewrite marks_app by lia.
  assert (Hq : length (passage_spans [p]) = O \/ length (passage_spans [p]) = 1%nat) by (destruct p; auto).
  rewrite (marks_app [p] b) by (rewrite skipn_length; lia).
  remember (length (passage_messages a)) as n. remember (length (passage_messages [p])) as k. remember (length (passage_spans a)) as q.
  assert (L1 : length (firstn n stamps) = n) by (rewrite firstn_length; lia).
  assert (L2 : length (firstn k (skipn n stamps)) = k) by (rewrite firstn_length, skipn_length; lia).
  eexists _, _, (firstn k (skipn n stamps)). split; [|split; [lia|reflexivity]].
  replace stamps with (firstn n stamps ++ firstn k (skipn n stamps) ++ skipn k (skipn n stamps)) at 1 by now rewrite !firstn_skipn.
  rewrite (combine_app (firstn n stamps)) by (rewrite marks_length; lia).
  rewrite (combine_app (firstn k (skipn n stamps))) by (rewrite marks_length; lia).
  rewrite console_app by (rewrite combine_length, marks_length; lia).
  rewrite console_app by (rewrite combine_length, marks_length; lia).
  f_equal. f_equal. f_equal.
  remember (firstn k (skipn n stamps)) as ts. clear - L2 Heqk. subst k.
  destruct p as [m|s ms]; cbn [passage_marks passage_messages flat_map List.app length] in *.
  - destruct ts as [|t [|? ?]]; try discriminate L2. reflexivity.
  - rewrite !app_nil_r in *. rewrite <- L2, combine_repeat. apply map_ext. intros t. f_equal. unfold trace_mark. do 2 f_equal.
    cbn [passage_spans flat_map length List.app]. clear. revert ids. induction q as [|q IH]; intros [|i ids]; try reflexivity. cbn [skipn nth]. apply IH.
Qed.
Lemma console_off l ids stamps ps : length stamps = length (passage_messages ps) ->
  console l (combine stamps (trace_marks (Some (str "true")) ids ps)) (passage_messages ps) = console l (map (fun t => (t, [])) stamps) (passage_messages ps).
Proof.
  intros H. unfold trace_marks. change (telemetry_on (Some (str "true"))) with false. cbv iota.
  replace (map (fun _ => []) (passage_messages ps)) with (repeat (@nil Z) (length stamps)).
  - now rewrite combine_repeat.
  - rewrite H. clear. induction (passage_messages ps) as [|m ms IH]; [reflexivity|]. cbn [length repeat map]. now rewrite IH.
Qed.
