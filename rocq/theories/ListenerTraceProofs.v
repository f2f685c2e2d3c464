(** Proofs about the listener's messages (C133). *)
From Verif Require Import Base BaseLemmas SpecConn ConnTerm FilesServe AppProofs AccessLog Messages HpackTrace ServerTrace Poller Listener SpecListener ListenerProofs
  ListenerTrace SpecListenerTrace ServerProofs.

Section Proofs.
  Variable little : bool.
  Variable system : calls_made -> syscall -> Z * Z.
  Variable reason : Z -> bytes.
  Hypothesis Hr : reliable little system.
  Notation told := (SpecListenerTrace.told system reason).
  Notation blames := (SpecListenerTrace.blames system reason).

  (** ** The same calls *)
  Definition stripped {A} (x : (A + bytes) * calls_made * list message) : option A * calls_made :=
    (match fst (fst x) with inl a => Some a | inr _ => None end, snd (fst x)).
  Definition same {A} (p : saying A) (q : prog A) : Prop := forall tr, stripped (p tr) = q tr.
  Lemma same_bind {A B} (p : saying A) q (f : A -> saying B) g : same p q -> (forall x, same (f x) (g x)) -> same (sbind p f) (bind_prog q g).
  Proof.
    intros Hp Hf tr. unfold sbind, bind_prog. rewrite <- Hp. destruct (p tr) as [[[x|t] tr'] ms]; [|reflexivity]. cbn [stripped fst snd].
    rewrite <- Hf. now destruct (f x tr') as [[? ?] ?].
  Qed.
  Lemma same_owning {A} fd (p : saying A) q : same p q -> same (sowning system fd p) (owning system fd q).
  Proof.
    intros Hp tr. unfold sowning, owning. rewrite <- Hp. destruct (p tr) as [[[x|t] tr'] ms]; [reflexivity|]. cbn. unfold do_call.
    now destruct (system tr' (SysClose fd)) as [r e].
  Qed.
  Lemma same_ret {A} (x : A) : same (sret x) (ret x).
  Proof. now intros tr. Qed.
  Lemma same_throw {A} w e : same (A := A) (sthrow reason w e) throw.
  Proof. now intros tr. Qed.
  Lemma same_call c : same (scall system c) (do_call system c).
  Proof. intros tr. unfold scall, do_call. now destruct (system tr c). Qed.
  Hint Resolve same_ret same_throw same_call same_owning : same.
  Lemma same_nonblocking fd : same (said_nonblocking system reason fd) (set_nonblocking_socket system fd).
  Proof.
    apply same_bind; [auto with same|]. intros [f e]. cbn [fst]. destruct (f =? -1); [auto with same|].
    apply same_bind; [auto with same|]. intros [f' e']. cbn [fst]. destruct (f' =? -1); auto with same.
  Qed.
  Lemma same_set_up port : same (said_set_up system little reason port) (set_up system little port).
  Proof.
    apply same_bind.
    - apply same_bind; [auto with same|]. intros [f e]. cbn [fst]. destruct (f <? 0); [auto with same|]. apply same_owning.
      apply same_bind; [apply same_nonblocking|]. intros _. apply same_bind.
      + apply same_bind; [auto with same|]. intros [r e']. cbn [fst]. destruct (negb _); auto with same.
      + intros _. apply same_bind; [|auto with same]. apply same_bind; [auto with same|]. intros [r e']. cbn [fst]. destruct (_ <? _); auto with same.
    - intros fd. apply same_owning. apply same_bind; [|auto with same]. apply same_bind; [auto with same|]. intros [r e']. cbn [fst]. destruct (_ <? _); auto with same.
  Qed.
  Lemma same_accept fd : same (said_accept system reason fd) (accept_call system fd).
  Proof.
    apply same_bind; [auto with same|]. intros [c e]. destruct (c >=? 0).
    - apply same_owning. apply same_bind; [apply same_nonblocking|]. intros _. apply same_bind; [|auto with same].
      apply same_bind; [auto with same|]. intros [r e']. destruct (r <? 0); [now intros tr|auto with same].
    - destruct ((e =? EAGAIN) || (e =? EINTR)); auto with same.
  Qed.
  Lemma same_serving port fd kept tr ms : said_serving system little reason port fd kept tr ms -> serving system little port fd kept tr.
  Proof.
    induction 1 as [fd tr ms E|fd kept tr ms tr' ms' _ IH E|fd kept tr ms c tr' ms' _ IH E|fd kept1 c kept2 tr ms _ IH].
    - apply sv_set_up. rewrite <- same_set_up, E. reflexivity.
    - eapply sv_nothing; [exact IH|]. rewrite <- same_accept, E. reflexivity.
    - eapply sv_accepted; [exact IH|]. rewrite <- same_accept, E. reflexivity.
    - assert (Y : fst (sclose system c tr) = snd (do_call system (SysClose c) tr)) by (unfold sclose, do_call; now destruct (system tr (SysClose c))).
      rewrite Y. now apply sv_closed.
  Qed.
  Lemma same_close_all l : forall tr, fst (said_close_all system l tr) = close_all system l tr.
  Proof.
    induction l as [|c l IH]; intros tr; [reflexivity|]. cbn [said_close_all]. unfold close_all. cbn [fold_left]. fold (close_all system l).
    unfold sclose. specialize (IH (tr ++ [(SysClose c, fst (system tr (SysClose c)))])).
    destruct (said_close_all system l _) as [tr2 ms2]. cbn [fst] in *. rewrite IH. unfold do_call. now destruct (system tr (SysClose c)).
  Qed.
  Lemma same_served port t tr ms : said_served system little reason port t tr ms ->
    served system little port (match t with Some _ => true | None => false end) tr.
  Proof.
    destruct 1 as [fd kept tr ms H|fd kept tr ms t tr' ms' H E|t tr ms E].
    - rewrite same_close_all. eapply sd_stopped, same_serving, H.
    - rewrite same_close_all. eapply sd_thrown; [eapply same_serving, H|]. rewrite <- same_accept, E. reflexivity.
    - apply sd_not_set_up. rewrite <- same_set_up, E. reflexivity.
  Qed.

  (** ** Messages and exceptions *)
  Lemma told_app tr l1 ms1 l2 ms2 : told tr l1 ms1 -> told (tr ++ l1) l2 ms2 -> told tr (l1 ++ l2) (ms1 ++ ms2).
  Proof.
    induction 1 as [tr|tr fd n r l ms R D _ IH|tr fd r v l ms R N _ IH|tr c r l ms R N1 N2 _ IH]; intros H; cbn [Datatypes.app].
    - now rewrite app_nil_r in H.
    - apply told_close; [exact R|exact D|]. apply IH. now rewrite <- app_assoc.
    - apply told_refused; [exact R|exact N|]. apply IH. now rewrite <- app_assoc.
    - apply told_nothing; [exact R|exact N1|exact N2|]. apply IH. now rewrite <- app_assoc.
  Qed.
  Lemma told_sclose fd tr : 0 <= fd -> told tr [(SysClose fd, fst (system tr (SysClose fd)))] (closing_trace fd).
  Proof.
    intros H. unfold closing_trace. replace (fd >=? 0) with true by (symmetry; apply Z.geb_le; lia).
    apply told_close; [reflexivity|apply to_string_spec, H|constructor].
  Qed.
  Definition fine (l : calls_made) : Prop := forall c r, In (c, r) l -> 0 <= r /\ forall fd, c <> SysClose fd.
  Lemma blames_app t tr l l2 : blames t tr l -> Forall is_close l2 -> blames t tr (l ++ l2).
  Proof.
    intros (l1 & c & r & n & l3 & -> & H1 & H2 & H3 & H4 & H5 & H6) H. exists l1, c, r, n, (l3 ++ l2). rewrite <- app_assoc.
    repeat (split; [assumption || reflexivity|]). apply Forall_app. now split.
  Qed.
  Lemma blames_after t tr l0 l : fine l0 -> blames t (tr ++ l0) l -> blames t tr (l0 ++ l).
  Proof.
    intros F (l1 & c & r & n & l3 & -> & H1 & H2 & H3 & H4 & H5 & H6). exists (l0 ++ l1), c, r, n, l3. rewrite <- app_assoc in *.
    repeat (split; [assumption || reflexivity|]). split; [|exact H6]. intros c' r' K. apply in_app_iff in K as [K|K]; [exact (F _ _ K)|exact (H5 _ _ K)].
  Qed.
  Definition good {A} (Q : A -> Prop) (p : saying A) : Prop := forall tr,
    let '(r, tr', ms) := p tr in exists l, tr' = tr ++ l /\ told tr l ms /\
    match r with inl x => fine l /\ Q x | inr t => blames t tr l end.
  Lemma good_ret {A} (Q : A -> Prop) x : Q x -> good Q (sret x).
  Proof. intros H tr. exists []. rewrite app_nil_r. split; [reflexivity|]. split; [constructor|]. split; [intros c r []|exact H]. Qed.
  Lemma good_bind {A B} (P : A -> Prop) (Q : B -> Prop) p f : good P p -> (forall x, P x -> good Q (f x)) -> good Q (sbind p f).
  Proof.
    intros Hp Hf tr. unfold sbind. specialize (Hp tr). destruct (p tr) as [[[x|t] tr1] ms1]; [|exact Hp].
    destruct Hp as (l1 & -> & T1 & F1 & Px). specialize (Hf x Px (tr ++ l1)). destruct (f x (tr ++ l1)) as [[y tr2] ms2].
    destruct Hf as (l2 & -> & T2 & K). exists (l1 ++ l2). rewrite app_assoc. split; [reflexivity|]. split; [now apply told_app|].
    destruct y as [y|t].
    - destruct K as [F2 K]. split; [|exact K]. intros c r Hi. apply in_app_iff in Hi as [Hi|Hi]; [exact (F1 _ _ Hi)|exact (F2 _ _ Hi)].
    - now apply blames_after.
  Qed.
  Lemma owning_parts {A} fd (p : saying A) tr : 0 <= fd ->
    (let '(r, tr', ms) := p tr in exists l, tr' = tr ++ l /\ told tr l ms /\ match r with inl x => True | inr t => blames t tr l end) ->
    let '(r, tr', ms) := sowning system fd p tr in exists l, tr' = tr ++ l /\ told tr l ms /\
      match r with inl x => sowning system fd p tr = p tr | inr t => blames t tr l end.
  Proof.
    intros H Hp. unfold sowning. destruct (p tr) as [[[x|t] tr1] ms1] eqn:E.
    - destruct Hp as (l & -> & T1 & _). exists l. now repeat split.
    - destruct Hp as (l & -> & T1 & B). cbn [sclose]. eexists. split; [now rewrite <- app_assoc|].
      split; [apply told_app; [exact T1|now apply told_sclose]|]. apply blames_app; [exact B|]. repeat constructor. now eexists.
  Qed.
  Lemma good_owning {A} (Q : A -> Prop) fd p : 0 <= fd -> good Q p -> good Q (sowning system fd p).
  Proof.
    intros H Hp tr. specialize (Hp tr). unfold sowning. destruct (p tr) as [[[x|t] tr1] ms1]; [exact Hp|]. destruct Hp as (l & -> & T1 & B).
    cbn [sclose]. eexists. split; [now rewrite <- app_assoc|]. split; [apply told_app; [exact T1|now apply told_sclose]|]. apply blames_app; [exact B|].
    repeat constructor. now eexists.
  Qed.
  Definition silent (c : syscall) : Prop := (forall fd, c <> SysClose fd) /\ forall fd v, c <> SysSetOption fd 6 1 v.
  Lemma told_silent tr c r : r = fst (system tr c) -> silent c -> told tr [(c, r)] [].
  Proof. intros R [H1 H2]. apply told_nothing; auto. constructor. Qed.
  Lemma fine_one c r : silent c -> 0 <= r -> fine [(c, r)].
  Proof. intros [S _] H c' r' [[= <- <-]|[]]. now split. Qed.
  Lemma good_check {A} (Q : A -> Prop) c n (bad : Z -> bool) (f : Z -> saying A) : named c n -> silent c ->
    (forall tr, let r := fst (system tr c) in if bad r then r < 0 else 0 <= r /\ good Q (f r)) ->
    good Q (sbind (scall system c) (fun x => let (r, e) := x in if bad r then sthrow reason n e else f r)).
  Proof.
    intros Hn Hs Hb tr. unfold sbind, scall. specialize (Hb tr). destruct (system tr c) as [r e] eqn:E. cbn [fst] in Hb. destruct (bad r).
    - cbn. exists [(c, r)]. split; [reflexivity|]. split; [apply told_silent; [now rewrite E|exact Hs]|]. exists [], c, r, n, []. rewrite app_nil_r, E. cbn [fst snd].
      repeat (split; [assumption || reflexivity|]). split; [intros c' r' []|constructor].
    - destruct Hb as [Hb Hf]. specialize (Hf (tr ++ [(c, r)])). destruct (f r _) as [[y tr2] ms2]. destruct Hf as (l2 & -> & T2 & K).
      exists ((c, r) :: l2). rewrite <- app_assoc. split; [reflexivity|]. split; [apply (told_app tr [(c, r)] [] l2 ms2); [apply told_silent; [now rewrite E|exact Hs]|exact T2]|].
      destruct y as [y|t].
      + destruct K as [F2 K]. split; [|exact K]. intros c' r' [[= <- <-]|Hi]; [split; [exact Hb|apply Hs]|exact (F2 _ _ Hi)].
      + apply (blames_after t tr [(c, r)] l2); [now apply fine_one|exact K].
  Qed.
  Lemma good_nonblocking fd : good (fun _ => True) (said_nonblocking system reason fd).
  Proof.
    apply (good_check _ _ _ (fun f => f =? -1)); [constructor|split; discriminate|]. intros tr. pose proof (Hr tr (SysGetFlags fd)) as [K _]. cbv zeta in *.
    destruct (Z.eqb_spec (fst (system tr (SysGetFlags fd))) (-1)); [lia|]. split; [lia|].
    apply (good_check _ _ _ (fun f => f =? -1)); [constructor|split; discriminate|]. intros tr'.
    match goal with |- context[system tr' ?c] => pose proof (Hr tr' c) as [K' _]; cbv zeta in *; destruct (Z.eqb_spec (fst (system tr' c)) (-1)); [lia|] end.
    split; [lia|]. now apply good_ret.
  Qed.
  Lemma good_set_up port : good (fun fd => 0 <= fd) (said_set_up system little reason port).
  Proof.
    apply (good_bind (fun fd => 0 <= fd)).
    - apply (good_check _ _ _ (fun f => f <? 0)); [constructor|split; discriminate|]. intros tr. cbv zeta.
      destruct (Z.ltb_spec (fst (system tr (SysSocket AF_INET SOCK_STREAM 0))) 0) as [L|L]; [exact L|]. split; [exact L|]. apply good_owning; [exact L|].
      apply (good_bind (fun _ => True)); [apply good_nonblocking|]. intros _ _. apply (good_bind (fun _ => True)).
      + match goal with |- context[said_reusable _ _ ?f] => generalize f end. intros fd.
        apply (good_check _ _ _ (fun f => negb (f =? 0))); [constructor|split; discriminate|]. intros tr'.
        pose proof (Hr tr' (SysSetOption fd SOL_SOCKET SO_REUSEADDR 1)) as [K K']. cbv zeta in *.
        destruct (Z.eqb_spec (fst (system tr' (SysSetOption fd SOL_SOCKET SO_REUSEADDR 1))) 0); cbn [negb]; [|lia]. split; [lia|]. now apply good_ret.
      + intros _ _. apply (good_bind (fun _ => True)); [|intros _ _; now apply good_ret].
        apply (good_check _ _ _ (fun f => f <? 0)); [constructor|split; discriminate|]. intros tr'. cbv zeta.
        destruct (Z.ltb_spec (fst (system tr' (SysBind (fst (system tr (SysSocket AF_INET SOCK_STREAM 0))) (address little port)))) 0) as [L'|L']; [exact L'|]. split; [exact L'|]. now apply good_ret.
    - intros fd H. apply good_owning; [exact H|]. apply (good_bind (fun _ => True)); [|intros _ _; now apply good_ret].
      apply (good_check _ _ _ (fun f => f <? 0)); [constructor|split; discriminate|]. intros tr. cbv zeta.
      destruct (Z.ltb_spec (fst (system tr (SysListen fd SOMAXCONN))) 0) as [L|L]; [exact L|]. split; [exact L|]. now apply good_ret.
  Qed.
  Lemma told_no_delay fd tr : exists tr' ms l, said_no_delay system reason fd tr = (inl tt, tr', ms) /\ tr' = tr ++ l /\ told tr l ms.
  Proof.
    unfold said_no_delay, sbind, scall. destruct (system tr (SysSetOption fd IPPROTO_TCP TCP_NODELAY 1)) as [r e] eqn:E. destruct (Z.ltb_spec r 0) as [L|L].
    - cbn. do 3 eexists. split; [reflexivity|]. split; [reflexivity|]. change (warn ?t) with (Msg LWarn t).
      replace e with (snd (system tr (SysSetOption fd 6 1 1))) by (change (SysSetOption fd 6 1 1) with (SysSetOption fd IPPROTO_TCP TCP_NODELAY 1); now rewrite E).
      apply told_refused; [change (SysSetOption fd 6 1 1) with (SysSetOption fd IPPROTO_TCP TCP_NODELAY 1); now rewrite E|exact L|constructor].
    - cbn. do 3 eexists. split; [reflexivity|]. split; [reflexivity|]. apply told_nothing; [now rewrite E|discriminate|lia|constructor].
  Qed.
  Lemma accept_told fd tr : let '(r, tr', ms) := said_accept system reason fd tr in exists l, tr' = tr ++ l /\ told tr l ms /\
    match r with inl (Some c) => 0 <= c | inl None => True | inr t => blames t tr l end.
  Proof.
    unfold said_accept, sbind at 1, scall at 1. destruct (system tr (SysAccept fd)) as [c e] eqn:E.
    assert (S : silent (SysAccept fd)) by (split; discriminate).
    assert (S1 : told tr [(SysAccept fd, c)] []) by (apply told_silent; [now rewrite E|exact S]).
    destruct (Z.geb_spec c 0) as [L|L].
    - set (p := sbind (said_nonblocking system reason c) _). set (tr1 := tr ++ [(SysAccept fd, c)]).
      assert (G : let '(r, tr', ms) := p tr1 in exists l, tr' = tr1 ++ l /\ told tr1 l ms /\ match r with inl x => True | inr t => blames t tr1 l end).
      { unfold p, sbind. pose proof (good_nonblocking c tr1) as N. destruct (said_nonblocking system reason c tr1) as [[[u|t] tr2] ms2]; [|exact N].
        destruct N as (l2 & -> & T2 & _). destruct (told_no_delay c (tr1 ++ l2)) as (tr3 & ms3 & l3 & -> & -> & T3). cbn.
        exists (l2 ++ l3). rewrite app_assoc, app_nil_r. split; [reflexivity|]. split; [now apply told_app|exact I]. }
      assert (Gp : forall x tr' ms, p tr1 = (inl x, tr', ms) -> x = Some c).
      { unfold p, sbind. intros x tr' ms. destruct (said_nonblocking system reason c tr1) as [[[u|t] tr2] ms2]; [|discriminate].
        destruct (told_no_delay c tr2) as (tr3 & ms3 & l3 & -> & _ & _). now intros [= <- _ _]. }
      apply (owning_parts c p tr1 ltac:(lia)) in G. destruct (sowning system c p tr1) as [[y tr2] ms2]. destruct G as (l & -> & T2 & K).
      exists ((SysAccept fd, c) :: l). unfold tr1. rewrite <- app_assoc. split; [reflexivity|]. split; [exact (told_app tr [(SysAccept fd, c)] [] l ms2 S1 T2)|].
      destruct y as [y|t]; [|exact (blames_after t tr [(SysAccept fd, c)] l (fine_one (SysAccept fd) c S ltac:(lia)) K)].
      rewrite (Gp y (tr1 ++ l) ms2 (eq_sym K)). lia.
    - destruct ((e =? EAGAIN) || (e =? EINTR)); cbn; (eexists; split; [reflexivity|]; split; [exact S1|]); [exact I|].
      exists [], (SysAccept fd), c, (str "accept"), []. rewrite app_nil_r, E. cbn [fst snd]. split; [reflexivity|]. split; [reflexivity|]. split; [exact L|]. split; [constructor|]. split; [reflexivity|].
      split; [intros c' r' []|constructor].
  Qed.
  Lemma close_all_told l : Forall (fun c => 0 <= c) l -> forall tr, let (tr', ms) := said_close_all system l tr in
    exists l', tr' = tr ++ l' /\ told tr l' ms /\ Forall is_close l'.
  Proof.
    induction 1 as [|c l Hc _ IH]; intros tr; [exists []; rewrite app_nil_r; repeat constructor|]. cbn [said_close_all sclose].
    specialize (IH (tr ++ [(SysClose c, fst (system tr (SysClose c)))])). destruct (said_close_all system l _) as [tr2 ms2].
    destruct IH as (l' & -> & T2 & F). eexists. split; [now rewrite <- app_assoc|]. split; [apply told_app; [now apply told_sclose|exact T2]|].
    apply Forall_app. split; [|exact F]. repeat constructor. now eexists.
  Qed.
  Lemma serving_told port fd kept tr ms : said_serving system little reason port fd kept tr ms ->
    told [] tr ms /\ Forall (fun c => 0 <= c) (fd :: kept).
  Proof.
    induction 1 as [fd tr ms E|fd kept tr ms tr' ms' _ [T1 F] E|fd kept tr ms c tr' ms' _ [T1 F] E|fd kept1 c kept2 tr ms _ [T1 F]].
    - pose proof (good_set_up port []) as G. rewrite E in G. destruct G as (l & -> & T1 & _ & Q). split; [exact T1|]. now repeat constructor.
    - pose proof (accept_told fd tr) as G. rewrite E in G. destruct G as (l & -> & T2 & _). split; [now apply told_app|exact F].
    - pose proof (accept_told fd tr) as G. rewrite E in G. destruct G as (l & -> & T2 & Q). split; [now apply told_app|].
      inversion F; subst. repeat constructor; assumption.
    - inversion F as [|? ? F1 F2]; subst. apply Forall_app in F2 as [F2 F3]. inversion F3 as [|? ? F4 F5]; subst. split.
      + cbn [sclose fst snd]. apply told_app; [exact T1|now apply told_sclose].
      + constructor; [exact F1|]. apply Forall_app. now split.
  Qed.
  Lemma served_told port t tr ms : said_served system little reason port t tr ms ->
    told [] tr ms /\ forall x, t = Some x -> exists tr0 l, tr = tr0 ++ l /\ blames x tr0 l.
  Proof.
    destruct 1 as [fd kept tr ms H|fd kept tr ms t tr' ms' H E|t tr ms E].
    - apply serving_told in H as [T1 F]. pose proof (close_all_told _ F tr) as G. destruct (said_close_all system (fd :: kept) tr) as [tr2 ms2].
      destruct G as (l' & -> & T2 & _). cbn [fst snd]. split; [now apply told_app|discriminate].
    - apply serving_told in H as [T1 F]. pose proof (accept_told fd tr) as G. rewrite E in G. destruct G as (l & -> & T2 & B).
      pose proof (close_all_told _ F (tr ++ l)) as G. destruct (said_close_all system (fd :: kept) (tr ++ l)) as [tr2 ms2].
      destruct G as (l' & -> & T3 & C). cbn [fst snd]. split; [|intros x [= <-]; exists tr, (l ++ l'); rewrite app_assoc; split; [reflexivity|now apply blames_app]].
      rewrite app_assoc. apply told_app; [now apply told_app|exact T3].
    - pose proof (good_set_up port []) as G. rewrite E in G. destruct G as (l & -> & T1 & B). split; [exact T1|]. intros x [= <-]. exists [], l. now split.
  Qed.
  Lemma told_none tr l ms : told tr l ms -> fine l -> ms = [].
  Proof.
    induction 1 as [tr|tr fd0 n0 r l ms R D _ IH|tr fd0 r v l ms R N _ IH|tr c r l ms R N1 N2 _ IH]; intros F; [reflexivity|..].
    - destruct (F _ _ (or_introl eq_refl)) as [_ K]. now elim (K fd0).
    - destruct (F _ _ (or_introl eq_refl)) as [K _]. lia.
    - apply IH. intros c' r' K. apply (F c' r'). now right.
  Qed.
  Lemma told_trace tr l ms : told tr l ms -> (forall fd v r, In (SysSetOption fd 6 1 v, r) l -> 0 <= r) -> Forall (fun m => m_level m = LTrace) ms.
  Proof.
    induction 1 as [tr|tr fd0 n0 r l ms R D _ IH|tr fd0 r v l ms R N _ IH|tr c r l ms R N1 N2 _ IH]; intros F; [constructor|..].
    - constructor; [reflexivity|]. apply IH. intros fd v r' K. apply (F fd v r'). now right.
    - specialize (F _ _ _ (or_introl eq_refl)). lia.
    - apply IH. intros fd v r' K. apply (F fd v r'). now right.
  Qed.
  Lemma blames_delay t tr l : blames t tr l -> forall fd v r, In (SysSetOption fd 6 1 v, r) l -> 0 <= r.
  Proof.
    intros (l1 & c & r & n & l2 & -> & _ & _ & Hn & _ & H1 & H2) fd v r' K. apply in_app_iff in K as [K|[K|K]].
    - apply (H1 _ _ K).
    - injection K as -> ->. inversion Hn.
    - rewrite Forall_forall in H2. destruct (H2 _ K) as [x E]. discriminate E.
  Qed.

  (** ** Counts *)
  Lemma told_closings tr l ms : told tr l ms -> forall n fd, decimal n fd -> 0 <= fd -> count (tells_closing n) ms = count (shuts fd) l.
  Proof.
    unfold count. induction 1 as [tr|tr fd0 n0 r l ms R D _ IH|tr fd0 r v l ms R N _ IH|tr c r l ms R N1 N2 _ IH]; intros n fd Hn Hf; [reflexivity|..].
    - cbn [filter]. assert (E : tells_closing n (Msg LTrace (str "closing socket fd " ++ n0)) = shuts fd (SysClose fd0, r)).
      { unfold tells_closing, shuts. cbn [m_text fst]. destruct (Z.eqb_spec fd0 fd) as [->|N].
        - apply bytes_eqb_eq. f_equal. eapply decimal_unique; eassumption.
        - destruct (bytes_eqb _ _) eqn:E; [|reflexivity]. apply bytes_eqb_eq, app_inv_head in E. subst n0. elim N. eapply decimal_value; eassumption. }
      rewrite E. destruct (shuts _ _); cbn [length]; rewrite (IH n fd Hn Hf); reflexivity.
    - cbn [filter]. change (tells_closing n (Msg LWarn _)) with false. apply (IH n fd Hn Hf).
    - cbn [filter]. replace (shuts fd (c, r)) with false; [apply (IH n fd Hn Hf)|]. unfold shuts. cbn [fst]. destruct c; try reflexivity. now elim (N1 fd0).
  Qed.
  Definition open_now (fd : Z) (m : list (Z * sock)) : nat := match mget fd m with Some _ => 1%nat | None => 0%nat end.
  Lemma balanced tr l ms : told tr l ms -> proper_calls little (tr ++ l) -> forall fd,
    (open_now fd (after little tr) + count (makes fd) l = count (shuts fd) l + open_now fd (after little (tr ++ l)))%nat.
  Proof.
    revert tr l ms.
    assert (S : forall tr c r l, r = fst (system tr c) -> proper_calls little (tr ++ (c, r) :: l) -> forall fd,
      (open_now fd (after little tr) + count (makes fd) [(c, r)] = count (shuts fd) [(c, r)] + open_now fd (after little (tr ++ [(c, r)])))%nat).
    { intros tr c r l R P fd. rewrite after_snoc. pose proof (P _ _ _ _ eq_refl) as U. pose proof (Hr tr c) as [_ K]. rewrite <- R in K.
      assert (O : forall x f, open_now fd match mget x (after little tr) with Some s => if r <? 0 then after little tr else mput x (f s) (after little tr) | None => after little tr end =
        open_now fd (after little tr)).
      { intros x f. destruct (mget x (after little tr)) as [s|] eqn:Es; [|reflexivity]. destruct (r <? 0); [reflexivity|]. unfold open_now. rewrite mget_mput.
        destruct (Z.eqb_spec fd x) as [->|]; [now rewrite Es|reflexivity]. }
      unfold count, makes, shuts. destruct c; cbn [after1 filter fst snd length]; try (rewrite O; lia).
      - destruct (Z.ltb_spec r 0) as [L|L].
        + replace (0 <=? r) with false by (symmetry; apply Z.leb_gt; lia). rewrite andb_false_r. cbn. lia.
        + replace (0 <=? r) with true by (symmetry; apply Z.leb_le; lia). rewrite andb_true_r. unfold open_now. rewrite mget_mput.
          rewrite (Z.eqb_sym r fd). destruct (Z.eqb_spec fd r) as [->|]; cbn [length]; [rewrite K|]; lia.
      - destruct (Z.ltb_spec r 0) as [L|L].
        + replace (0 <=? r) with false by (symmetry; apply Z.leb_gt; lia). rewrite andb_false_r. cbn. lia.
        + replace (0 <=? r) with true by (symmetry; apply Z.leb_le; lia). rewrite andb_true_r. unfold open_now. rewrite mget_mput.
          rewrite (Z.eqb_sym r fd). destruct (Z.eqb_spec fd r) as [->|]; cbn [length]; [rewrite K|]; lia.
      - cbn [usable] in U. unfold open_now. rewrite mget_mdel. rewrite (Z.eqb_sym fd0 fd). destruct (Z.eqb_spec fd fd0) as [->|]; cbn [length]; [|lia].
        destruct (mget fd0 (after little tr)); [lia|congruence]. }
    assert (C : forall f (x : syscall * Z) l, count f (x :: l) = (count f [x] + count f l)%nat) by (intros f x l0; unfold count; cbn [filter]; destruct (f x); reflexivity).
    assert (St : forall tr c r l, r = fst (system tr c) ->
      (proper_calls little ((tr ++ [(c, r)]) ++ l) -> forall fd, (open_now fd (after little (tr ++ [(c, r)])) + count (makes fd) l = count (shuts fd) l + open_now fd (after little ((tr ++ [(c, r)]) ++ l)))%nat) ->
      proper_calls little (tr ++ (c, r) :: l) -> forall fd, (open_now fd (after little tr) + count (makes fd) ((c, r) :: l) = count (shuts fd) ((c, r) :: l) + open_now fd (after little (tr ++ (c, r) :: l)))%nat).
    { intros tr0 c r l0 R IH P fd. pose proof (S tr0 c r l0 R P fd) as S1. rewrite <- app_assoc in IH. specialize (IH P fd). cbn [Datatypes.app] in IH.
      rewrite (C (makes fd)), (C (shuts fd)). lia. }
    intros tr l ms. induction 1 as [tr|tr fd0 n0 r l ms R D _ IH|tr fd0 r v l ms R N _ IH|tr c r l ms R N1 N2 _ IH].
    - intros P fd. rewrite app_nil_r. cbn. lia.
    - now apply St.
    - now apply St.
    - now apply St.
  Qed.
End Proofs.
