(** Proofs about the listener (C90). *)
From Verif Require Import Base BaseLemmas Poller Listener SpecListener ServerProofs.

Section Proofs.
  Variable little : bool.
  Variable system : calls_made -> syscall -> Z * Z.
  Hypothesis Hr : reliable little system.
  Notation after := (after little).
  Notation proper := (proper_calls little).

  Lemma after_snoc tr x : after (tr ++ [x]) = after1 little (after tr) x.
  Proof. unfold SpecListener.after. now rewrite fold_left_app. Qed.
  Lemma proper_snoc tr c r : proper tr -> usable (after tr) c -> proper (tr ++ [(c, r)]).
  Proof.
    intros H U tr1 c' r' tr2 E. destruct tr2 as [|y tr2] using rev_ind.
    - apply app_inj_tail in E as [<- [= <- <-]]. exact U.
    - rewrite app_comm_cons, app_assoc in E. apply app_inj_tail in E as [E _]. exact (H _ _ _ _ E).
  Qed.
  Lemma proper_nil : proper [].
  Proof. intros [|] c r tr2 E; discriminate. Qed.

  (** What a piece of the program that works on [fd] may do: use it, while it is open. *)
  Record works (fd : Z) (tr tr' : calls_made) : Prop := {
    w_more : exists l, tr' = tr ++ l;
    w_proper : proper tr -> proper tr';
    w_open : mget fd (after tr') <> None;
    w_others : forall x, x <> fd -> mget x (after tr') = mget x (after tr) }.
  Lemma works_refl fd tr : mget fd (after tr) <> None -> works fd tr tr.
  Proof. split; auto. exists []. now rewrite app_nil_r. Qed.
  Lemma works_trans fd tr1 tr2 tr3 : works fd tr1 tr2 -> works fd tr2 tr3 -> works fd tr1 tr3.
  Proof.
    intros [[l ->] A2 A3 A4] [[l' ->] B2 B3 B4]. split; auto.
    - exists (l ++ l'). now rewrite app_assoc.
    - intros x N. rewrite B4, A4; auto.
  Qed.
  Definition about (fd : Z) (c : syscall) : Prop :=
    match c with
    | SysGetFlags x | SysSetFlags x _ | SysSetOption x _ _ _ | SysBind x _ | SysListen x _ => x = fd
    | _ => False
    end.
  Lemma works_call fd c r tr : about fd c -> mget fd (after tr) <> None -> works fd tr (tr ++ [(c, r)]).
  Proof.
    intros Hc Ho.
    assert (E : forall f : sock -> sock, let m := match mget fd (after tr) with Some s => if r <? 0 then after tr else mput fd (f s) (after tr) | None => after tr end in
      mget fd m <> None /\ forall x, x <> fd -> mget x m = mget x (after tr)).
    { intros f. cbv zeta. destruct (mget fd (after tr)) as [s|] eqn:Es; [|congruence].
      destruct (r <? 0); [rewrite Es; easy|]. split; [rewrite mget_mput, Z.eqb_refl; congruence|].
      intros x N. rewrite mget_mput. apply Z.eqb_neq in N. now rewrite N. }
    assert (K : mget fd (after (tr ++ [(c, r)])) <> None /\ forall x, x <> fd -> mget x (after (tr ++ [(c, r)])) = mget x (after tr)).
    { rewrite after_snoc. destruct c; cbn in Hc; try easy; subst; cbn [after1]; apply E. }
    split; [now eexists| |apply K|apply K]. intros Hp. apply proper_snoc; [exact Hp|]. destruct c; cbn in Hc; try easy; subst; exact Ho.
  Qed.

  (** ** Pieces *)
  Lemma call_result tr c : exists r e, system tr c = (r, e) /\ -1 <= r.
  Proof. pose proof (Hr tr c) as [H _]. destruct (system tr c) as [r e]. now exists r, e. Qed.

  Definition flags_set (f : Z) (s : sock) : sock :=
    Sock (so_kind s) (Some f) (Some (Z.lor f O_NONBLOCK)) (so_reuse s) (so_nodelay s) (so_bound s) (so_listening s) (so_backlog s).
  Lemma nonblocking_spec fd s tr : mget fd (after tr) = Some s ->
    match set_nonblocking_socket system fd tr with
    | (Some _, tr') => works fd tr tr' /\ exists f, mget fd (after tr') = Some (flags_set f s)
    | (None, tr') => works fd tr tr' /\ exists l, tr' = tr ++ l /\ failed l
    end.
  Proof.
    intros Hs. unfold set_nonblocking_socket, bind_prog, do_call, throw, ret.
    destruct (call_result tr (SysGetFlags fd)) as (r & e & -> & R). cbn [fst].
    assert (W1 : works fd tr (tr ++ [(SysGetFlags fd, r)])) by (apply works_call; cbn; congruence).
    destruct (Z.eqb_spec r (-1)) as [->|N].
    - split; [exact W1|]. eexists. split; [reflexivity|]. do 2 eexists. split; [now left|lia].
    - destruct (call_result (tr ++ [(SysGetFlags fd, r)]) (SysSetFlags fd (Z.lor r O_NONBLOCK))) as (r2 & e2 & -> & R2). cbn [fst].
      assert (W2 : works fd tr ((tr ++ [(SysGetFlags fd, r)]) ++ [(SysSetFlags fd (Z.lor r O_NONBLOCK), r2)])).
      { eapply works_trans; [exact W1|]. apply works_call; [reflexivity|apply W1]. }
      destruct (Z.eqb_spec r2 (-1)) as [->|N2].
      + split; [exact W2|]. eexists. split; [now rewrite <- app_assoc|]. do 2 eexists. split; [right; now left|lia].
      + split; [exact W2|]. exists r. rewrite !after_snoc. cbn [after1]. rewrite Hs.
        destruct (Z.ltb_spec r 0); [lia|]. rewrite mget_mput, Z.eqb_refl. destruct (Z.ltb_spec r2 0); [lia|].
        now rewrite mget_mput, Z.eqb_refl.
  Qed.
  Lemma reusable_spec fd s tr : mget fd (after tr) = Some s ->
    match set_reusable_addr system fd tr with
    | (Some _, tr') => works fd tr tr' /\
        mget fd (after tr') = Some (Sock (so_kind s) (so_reported s) (so_flags s) true (so_nodelay s) (so_bound s) (so_listening s) (so_backlog s))
    | (None, tr') => works fd tr tr' /\ exists l, tr' = tr ++ l /\ failed l
    end.
  Proof.
    intros Hs. unfold set_reusable_addr, bind_prog, do_call, throw, ret. set (c := SysSetOption _ _ _ _).
    pose proof (Hr tr c) as [R R0]. destruct (system tr c) as [r e]. cbn [fst] in *.
    assert (W1 : works fd tr (tr ++ [(c, r)])) by (apply works_call; cbn; congruence).
    destruct (Z.eqb_spec r 0) as [->|N]; cbn [negb].
    - split; [exact W1|]. rewrite after_snoc. unfold c. cbn [after1]. rewrite Hs. cbn. now rewrite Z.eqb_refl.
    - split; [exact W1|]. eexists. split; [reflexivity|]. do 2 eexists. split; [now left|]. cbn in R0. lia.
  Qed.
  Lemma address_read port : 0 <= port < 65536 -> read_address little (address little port) = Some ([0; 0; 0; 0], port).
  Proof.
    intros H. unfold read_address, address, in_memory, htons. destruct little; cbn; f_equal; f_equal.
    - assert (Q : (port mod 256 * 256 + port / 256) / 256 = port mod 256)
        by (rewrite (Z.add_comm _ (port / 256)), Z.div_add, Z.div_small; [lia|split; [apply Z.div_pos; lia|apply Z.div_lt_upper_bound; lia]|lia]).
      assert (Q' : (port mod 256 * 256 + port / 256) mod 256 = port / 256)
        by (rewrite (Z.add_comm _ (port / 256)), Z_mod_plus_full, Z.mod_small; [lia|split; [apply Z.div_pos; lia|apply Z.div_lt_upper_bound; lia]]).
      change (256 * ((port mod 256 * 256 + port / 256) mod 256) + (port mod 256 * 256 + port / 256) / 256 = port).
      rewrite Q, Q'. pose proof (Z.div_mod port 256). lia.
    - change (256 * (port / 256) + port mod 256 = port). pose proof (Z.div_mod port 256). lia.
  Qed.
  Lemma bind_spec fd port s tr : 0 <= port < 65536 -> mget fd (after tr) = Some s ->
    match bind_socket system little fd port tr with
    | (Some _, tr') => works fd tr tr' /\
        mget fd (after tr') = Some (Sock (so_kind s) (so_reported s) (so_flags s) (so_reuse s) (so_nodelay s) (Some ([0; 0; 0; 0], port, so_reuse s)) (so_listening s) (so_backlog s))
    | (None, tr') => works fd tr tr' /\ exists l, tr' = tr ++ l /\ failed l
    end.
  Proof.
    intros Hp Hs. unfold bind_socket, bind_prog, do_call, throw, ret. pose proof (address_read port Hp) as Ha.
    set (c := SysBind _ _). destruct (call_result tr c) as (r & e & -> & R). cbn [fst].
    assert (W1 : works fd tr (tr ++ [(c, r)])) by (apply works_call; cbn; congruence).
    destruct (Z.ltb_spec r 0) as [L|L].
    - split; [exact W1|]. eexists. split; [reflexivity|]. do 2 eexists. split; [now left|lia].
    - split; [exact W1|]. rewrite after_snoc. unfold c. cbn [after1]. rewrite Hs, Ha. destruct (Z.ltb_spec r 0); [lia|].
      now rewrite mget_mput, Z.eqb_refl.
  Qed.
  Lemma listen_spec fd s tr : mget fd (after tr) = Some s ->
    match listen system fd tr with
    | (Some _, tr') => works fd tr tr' /\
        mget fd (after tr') = Some (Sock (so_kind s) (so_reported s) (so_flags s) (so_reuse s) (so_nodelay s) (so_bound s) true SOMAXCONN)
    | (None, tr') => works fd tr tr' /\ exists l, tr' = tr ++ l /\ failed l
    end.
  Proof.
    intros Hs. unfold listen, bind_prog, do_call, throw, ret.
    set (c := SysListen _ _). destruct (call_result tr c) as (r & e & -> & R). cbn [fst].
    assert (W1 : works fd tr (tr ++ [(c, r)])) by (apply works_call; cbn; congruence).
    destruct (Z.ltb_spec r 0) as [L|L].
    - split; [exact W1|]. eexists. split; [reflexivity|]. do 2 eexists. split; [now left|lia].
    - split; [exact W1|]. rewrite after_snoc. unfold c. cbn [after1]. rewrite Hs. destruct (Z.ltb_spec r 0); [lia|].
      now rewrite mget_mput, Z.eqb_refl.
  Qed.
  Lemma nodelay_spec fd s tr : mget fd (after tr) = Some s ->
    exists r tr', set_tcp_no_delay system fd tr = (Some tt, tr') /\ tr' = tr ++ [(SysSetOption fd IPPROTO_TCP TCP_NODELAY 1, r)] /\ works fd tr tr' /\
      mget fd (after tr') = Some (Sock (so_kind s) (so_reported s) (so_flags s) (so_reuse s) (if r <? 0 then so_nodelay s else true) (so_bound s) (so_listening s) (so_backlog s)).
  Proof.
    intros Hs. unfold set_tcp_no_delay, bind_prog, do_call, ret. set (c := SysSetOption _ _ _ _).
    destruct (call_result tr c) as (r & e & -> & R). exists r, (tr ++ [(c, r)]). split; [reflexivity|]. split; [reflexivity|].
    split; [apply works_call; cbn; congruence|]. rewrite after_snoc. unfold c. cbn [after1]. rewrite Hs. destruct (r <? 0); [destruct s; exact Hs|].
    now rewrite mget_mput, Z.eqb_refl.
  Qed.
  (** Closing. *)
  Lemma close_call fd tr : mget fd (after tr) <> None ->
    exists r, snd (do_call system (SysClose fd) tr) = tr ++ [(SysClose fd, r)] /\
      (proper tr -> proper (tr ++ [(SysClose fd, r)])) /\
      forall x, mget x (after (tr ++ [(SysClose fd, r)])) = if x =? fd then None else mget x (after tr).
  Proof.
    intros Ho. unfold do_call. destruct (system tr (SysClose fd)) as [r e]. exists r. split; [reflexivity|]. split.
    - intros Hp. now apply proper_snoc.
    - intros x. rewrite after_snoc. cbn [after1]. apply mget_mdel.
  Qed.
  Lemma failed_app l l' : failed l -> failed (l ++ l').
  Proof. intros (c & r & H & R). exists c, r. rewrite in_app_iff. auto. Qed.
  Lemma failed_app2 l l' : failed l' -> failed (l ++ l').
  Proof. intros (c & r & H & R). exists c, r. rewrite in_app_iff. auto. Qed.

  (** ** The whole set-up *)
  Lemma set_up_spec port : 0 <= port < 65536 ->
    match set_up system little port [] with
    | (Some fd, tr) => proper tr /\ 0 <= fd /\ (exists f,
        mget fd (after tr) = Some (Sock (Some (AF_INET, SOCK_STREAM, 0)) (Some f) (Some (Z.lor f O_NONBLOCK)) true false (Some ([0; 0; 0; 0], port, true)) true SOMAXCONN)) /\
        forall x, x <> fd -> mget x (after tr) = None
    | (None, tr) => proper tr /\ failed tr /\ forall x, mget x (after tr) = None
    end.
  Proof.
    intros Hp. unfold set_up, make_listener, owning, bind_prog at 1. unfold bind_prog at 1. unfold do_call at 1.
    set (c := SysSocket _ _ _). pose proof (Hr [] c) as [R _]. destruct (system [] c) as [fd e]. cbn [fst app] in *.
    assert (P1 : proper [(c, fd)]) by (apply (proper_snoc [] c fd proper_nil I)).
    destruct (Z.ltb_spec fd 0) as [L|L].
    { cbn. split; [exact P1|]. split; [exists c, fd; split; [now left|lia]|]. intros x. unfold SpecListener.after. cbn. destruct (Z.ltb_spec fd 0); [reflexivity|lia]. }
    set (tr1 := [(c, fd)]) in *.
    assert (S1 : mget fd (after tr1) = Some (new_sock (Some (AF_INET, SOCK_STREAM, 0)))).
    { unfold SpecListener.after, tr1, c. cbn. destruct (Z.ltb_spec fd 0); [lia|]. cbn. now rewrite Z.eqb_refl. }
    assert (O1 : forall x, x <> fd -> mget x (after tr1) = None).
    { intros x N. unfold SpecListener.after, tr1, c. cbn. destruct (Z.ltb_spec fd 0); [lia|]. cbn. apply Z.eqb_neq in N. now rewrite N. }
    assert (Bad : forall tr', works fd tr1 tr' -> (exists l, tr' = tr1 ++ l /\ failed l) ->
      let t := snd (do_call system (SysClose fd) tr') in proper t /\ failed t /\ forall x, mget x (after t) = None).
    { intros tr' [_ A2 A3 A4] (l & -> & F). cbv zeta. destruct (close_call fd _ A3) as (r & -> & P & Q). split; [auto|].
      split; [now apply failed_app, failed_app2|]. intros x. rewrite Q. destruct (Z.eqb_spec x fd); [reflexivity|]. rewrite A4; auto. }
    assert (Weak : forall tr' tr'', works fd tr1 tr' -> (exists l, tr'' = tr' ++ l /\ failed l) -> exists l, tr'' = tr1 ++ l /\ failed l).
    { intros tr' tr'' [[l ->] _ _ _] (l' & -> & F). exists (l ++ l'). split; [now rewrite app_assoc|now apply failed_app2]. }
    unfold bind_prog at 1. pose proof (nonblocking_spec fd _ tr1 S1) as N. destruct (set_nonblocking_socket system fd tr1) as [[u|] tr2].
    2:{ destruct N as [N1 N2]. exact (Bad _ N1 N2). }
    destruct N as (W2 & f & S2). cbn [flags_set so_kind so_reported so_flags so_reuse so_nodelay so_bound so_listening so_backlog new_sock] in S2.
    unfold bind_prog at 1. pose proof (reusable_spec fd _ tr2 S2) as N. destruct (set_reusable_addr system fd tr2) as [[u'|] tr3].
    2:{ destruct N as [N1 N2]. apply Bad; [now apply (works_trans _ _ _ _ W2)|now apply (Weak tr2)]. }
    destruct N as (W3 & S3). cbn [so_kind so_reported so_flags so_reuse so_nodelay so_bound so_listening so_backlog] in S3. pose proof (works_trans _ _ _ _ W2 W3) as V3.
    unfold bind_prog at 1. pose proof (bind_spec fd port _ tr3 Hp S3) as N. destruct (bind_socket system little fd port tr3) as [[u''|] tr4].
    2:{ destruct N as [N1 N2]. apply Bad; [now apply (works_trans _ _ _ _ V3)|now apply (Weak tr3)]. }
    destruct N as (W4 & S4). cbn [so_kind so_reported so_flags so_reuse so_nodelay so_bound so_listening so_backlog] in S4. pose proof (works_trans _ _ _ _ V3 W4) as V4.
    unfold ret at 1. unfold bind_prog. pose proof (listen_spec fd _ tr4 S4) as N. destruct (listen system fd tr4) as [[u3|] tr5].
    2:{ destruct N as [N1 N2]. apply Bad; [now apply (works_trans _ _ _ _ V4)|now apply (Weak tr4)]. }
    destruct N as (W5 & S5). cbn [so_kind so_reported so_flags so_reuse so_nodelay so_bound so_listening so_backlog] in S5. pose proof (works_trans _ _ _ _ V4 W5) as V5.
    unfold ret. split; [apply V5, P1|]. split; [exact L|]. split; [exists f; exact S5|]. intros x Nx. rewrite (w_others _ _ _ V5 x Nx). auto.
  Qed.

  (** ** Accepting *)
  Lemma accept_spec lfd tr : mget lfd (after tr) <> None ->
    let (res, tr') := accept_call system lfd tr in
    let (r, e) := system tr (SysAccept lfd) in
    exists l, tr' = tr ++ (SysAccept lfd, r) :: l /\ (proper tr -> proper tr') /\
    match res with
    | Some (Some c) => c = r /\ 0 <= c /\ mget c (after tr) = None /\ ~ failed (firstn 2 l) /\
        (exists f d, mget c (after tr') = Some (Sock None (Some f) (Some (Z.lor f O_NONBLOCK)) false d None false 0) /\ (d = true <-> ~ failed l)) /\
        forall x, x <> c -> mget x (after tr') = mget x (after tr)
    | Some None => r < 0 /\ (e = EAGAIN \/ e = EINTR) /\ l = [] /\ forall x, mget x (after tr') = mget x (after tr)
    | None => (r < 0 /\ e <> EAGAIN /\ e <> EINTR \/ 0 <= r /\ failed (firstn 2 l) /\ failed (filter about_flags l)) /\ forall x, mget x (after tr') = mget x (after tr)
    end.
  Proof.
    intros Ho. unfold accept_call. unfold bind_prog at 1. unfold do_call at 1. pose proof (Hr tr (SysAccept lfd)) as [R N].
    destruct (system tr (SysAccept lfd)) as [fd e]. cbn [fst] in *. set (tr1 := tr ++ [(SysAccept lfd, fd)]).
    assert (P1 : proper tr -> proper tr1) by (intros; now apply proper_snoc).
    assert (E1 : after tr1 = if fd <? 0 then after tr else mput fd (new_sock None) (after tr)) by (unfold tr1; rewrite after_snoc; reflexivity).
    destruct (Z.geb_spec fd 0) as [G|G].
    - assert (X : (fd <? 0) = false) by (apply Z.ltb_ge; lia). rewrite X in E1.
      assert (S1 : mget fd (after tr1) = Some (new_sock None)) by (rewrite E1, mget_mput, Z.eqb_refl; reflexivity).
      assert (O1 : forall x, x <> fd -> mget x (after tr1) = mget x (after tr)).
      { intros x Nx. rewrite E1, mget_mput. apply Z.eqb_neq in Nx. now rewrite Nx. }
      unfold owning, bind_prog at 1. unfold set_nonblocking_socket at 1, bind_prog at 1, do_call at 1.
      destruct (call_result tr1 (SysGetFlags fd)) as (r & e1 & -> & R1). cbn [fst].
      assert (W2 : works fd tr1 (tr1 ++ [(SysGetFlags fd, r)])) by (apply works_call; cbn; congruence).
      assert (Close : forall tr', works fd tr1 tr' -> let t := snd (do_call system (SysClose fd) tr') in
        exists q, t = tr' ++ [(SysClose fd, q)] /\ (proper tr -> proper t) /\ forall x, mget x (after t) = mget x (after tr)).
      { intros tr' [_ A2 A3 A4]. cbv zeta. destruct (close_call fd _ A3) as (q & -> & P & Q). exists q. split; [reflexivity|]. split; [auto|].
        intros x. rewrite Q. destruct (Z.eqb_spec x fd) as [->|Nx]; [now rewrite N|]. rewrite A4; auto. }
      destruct (Z.eqb_spec r (-1)) as [->|N1].
      + unfold throw. destruct (Close _ W2) as (q & -> & P & Q). eexists. split; [unfold tr1; rewrite <- !app_assoc; reflexivity|].
        split; [unfold tr1 in *; rewrite <- !app_assoc in P; rewrite <- !app_assoc; exact P|].
        split; [|exact Q]. right. split; [lia|]. split; do 2 eexists; (split; [now left|lia]).
      + unfold bind_prog at 1, do_call at 1. destruct (call_result (tr1 ++ [(SysGetFlags fd, r)]) (SysSetFlags fd (Z.lor r O_NONBLOCK))) as (r2 & e2 & -> & R2). cbn [fst].
        set (tr3 := (tr1 ++ [(SysGetFlags fd, r)]) ++ [(SysSetFlags fd (Z.lor r O_NONBLOCK), r2)]).
        assert (W3 : works fd tr1 tr3) by (apply (works_trans _ _ _ _ W2); apply works_call; [reflexivity|apply W2]).
        destruct (Z.eqb_spec r2 (-1)) as [->|N2].
        * unfold throw. destruct (Close _ W3) as (q & -> & P & Q). eexists. split; [unfold tr3, tr1; rewrite <- !app_assoc; reflexivity|].
          split; [unfold tr3, tr1 in *; rewrite <- !app_assoc in P; rewrite <- !app_assoc; exact P|].
          split; [|exact Q]. right. split; [lia|]. split; do 2 eexists; (split; [right; now left|lia]).
        * unfold ret at 1. unfold bind_prog.
          assert (S3 : mget fd (after tr3) = Some (Sock None (Some r) (Some (Z.lor r O_NONBLOCK)) false false None false 0)).
          { unfold tr3. rewrite !after_snoc. cbn [after1]. rewrite S1.
            destruct (Z.ltb_spec r 0); [lia|]. rewrite mget_mput, Z.eqb_refl. destruct (Z.ltb_spec r2 0); [lia|].
            now rewrite mget_mput, Z.eqb_refl. }
          destruct (nodelay_spec fd _ tr3 S3) as (r3 & tr4 & -> & E4 & W4 & S4).
          cbn [so_kind so_reported so_flags so_reuse so_nodelay so_bound so_listening so_backlog] in S4. pose proof (works_trans _ _ _ _ W3 W4) as V4.
          unfold ret. eexists. split; [rewrite E4; unfold tr3, tr1; rewrite <- !app_assoc; reflexivity|].
          split; [intros P; apply V4, P1, P|]. split; [reflexivity|]. split; [lia|]. split; [exact N|]. cbn [firstn app].
          split; [intros (c & q & [[= <- <-]|[[= <- <-]|[]]] & Q); lia|].
          split; [|intros x Nx; rewrite (w_others _ _ _ V4 x Nx); auto].
          do 2 eexists. split; [exact S4|]. destruct (Z.ltb_spec r3 0) as [L|L].
          -- split; [discriminate|]. intros K. exfalso. apply K. do 2 eexists. split; [right; right; now left|exact L].
          -- split; [|reflexivity]. intros _ (c & q & [[= <- <-]|[[= <- <-]|[[= <- <-]|[]]]] & Q); lia.
    - assert (X : (fd <? 0) = true) by (apply Z.ltb_lt; lia). rewrite X in E1.
      destruct (Z.eqb_spec e EAGAIN) as [->|A]; [|destruct (Z.eqb_spec e EINTR) as [->|B]]; cbn [orb]; unfold ret, throw;
        (eexists; split; [reflexivity|]; split; [exact P1|]).
      + split; [lia|]. split; [auto|]. split; [reflexivity|]. now rewrite E1.
      + split; [lia|]. split; [auto|]. split; [reflexivity|]. now rewrite E1.
      + split; [left; split; [lia|auto]|]. now rewrite E1.
  Qed.

  (** ** The whole life *)
  Definition ours (fd : Z) (kept : list Z) (tr : calls_made) : Prop :=
    forall x, mget x (after tr) <> None <-> x = fd \/ In x kept.
  Lemma serving_spec port : 0 <= port < 65536 -> forall fd kept tr, serving system little port fd kept tr ->
    proper tr /\ NoDup (fd :: kept) /\ ours fd kept tr /\
    (exists f, mget fd (after tr) =
      Some (Sock (Some (AF_INET, SOCK_STREAM, 0)) (Some f) (Some (Z.lor f O_NONBLOCK)) true false (Some ([0; 0; 0; 0], port, true)) true SOMAXCONN)) /\
    (forall c, In c kept -> exists f d, mget c (after tr) = Some (Sock None (Some f) (Some (Z.lor f O_NONBLOCK)) false d None false 0)).
  Proof.
    intros Hp. induction 1 as [fd tr E|fd kept tr tr' H IH E|fd kept tr c tr' H IH E|fd kept1 c kept2 tr H IH].
    - pose proof (set_up_spec port Hp) as S. rewrite E in S. destruct S as (P & L & (f & S) & O). split; [exact P|].
      split; [constructor; [easy|constructor]|]. split; [|split; [now exists f|easy]].
      intros x. destruct (Z.eq_dec x fd) as [->|N]; [rewrite S; intuition congruence|]. rewrite (O x N). cbn. intuition congruence.
    - destruct IH as (P & D & O & (f & S) & K). assert (Ho : mget fd (after tr) <> None) by congruence.
      pose proof (accept_spec fd tr Ho) as A. rewrite E in A. destruct (system tr (SysAccept fd)) as [r e].
      destruct A as (l & -> & A1 & _ & _ & _ & A2). split; [auto|]. split; [exact D|].
      split; [intros x; rewrite A2; apply O|]. split; [exists f; now rewrite A2|]. intros c Hc. rewrite A2. auto.
    - destruct IH as (P & D & O & (f & S) & K). assert (Ho : mget fd (after tr) <> None) by congruence.
      pose proof (accept_spec fd tr Ho) as A. rewrite E in A. destruct (system tr (SysAccept fd)) as [r e].
      destruct A as (l & -> & A1 & _ & _ & A3 & _ & A4 & A2).
      assert (N : ~ (c = fd \/ In c kept)) by (intros X; apply O in X; congruence).
      split; [auto|]. split; [|split; [|split]].
      + inversion D as [|? ? D1 D2]; subst. constructor; [|constructor; [tauto|exact D2]]. intros [X|X]; [apply N; auto|auto].
      + intros x. cbn [In]. destruct (Z.eq_dec x c) as [->|Nx]; [destruct A4 as (f' & d & -> & _); intuition congruence|].
        rewrite (A2 x Nx), (O x). intuition congruence.
      + exists f. rewrite A2; [exact S|]. intros ->. tauto.
      + intros x [<-|Hx]; [destruct A4 as (f' & d & A4 & _); now exists f', d|]. rewrite A2; [auto|]. intros ->. tauto.
    - destruct IH as (P & D & O & (f & S) & K).
      assert (Ho : mget c (after tr) <> None) by (apply O; right; apply in_app_iff; right; now left).
      destruct (close_call c tr Ho) as (r & -> & A1 & A2). rewrite app_comm_cons in D. pose proof D as D'. apply NoDup_remove in D as [D Dn].
      assert (Nf : fd <> c) by (intros ->; apply Dn; now left).
      split; [auto|]. split; [exact D|]. split; [|split].
      + intros x. rewrite A2. destruct (Z.eqb_spec x c) as [->|Nx].
        * split; [congruence|]. intros [X|X]; exfalso; [congruence|apply Dn; now right].
        * rewrite (O x), !in_app_iff. cbn [In]. intuition congruence.
      + exists f. rewrite A2. destruct (Z.eqb_spec fd c); [congruence|exact S].
      + intros x Hx. rewrite A2. destruct (Z.eqb_spec x c) as [->|Nx]; [exfalso; apply Dn; now right|].
        apply K. rewrite in_app_iff in *. cbn. tauto.
  Qed.
  Lemma close_all_spec : forall l tr, proper tr -> NoDup l -> (forall x, mget x (after tr) <> None <-> In x l) ->
    proper (close_all system l tr) /\ (forall x, mget x (after (close_all system l tr)) = None) /\ exists t, close_all system l tr = tr ++ t.
  Proof.
    induction l as [|c l IH]; intros tr P D O.
    - split; [exact P|]. split; [|exists []; now rewrite app_nil_r]. intros x. change (mget x (after tr) = None). specialize (O x). destruct (mget x (after tr)); [|reflexivity].
      destruct (proj1 O); congruence.
    - inversion D; subst. cbn [close_all fold_left]. assert (Ho : mget c (after tr) <> None) by (apply O; now left).
      destruct (close_call c tr Ho) as (r & -> & A1 & A2).
      destruct (IH (tr ++ [(SysClose c, r)])) as (B1 & B2 & t & B3); auto.
      + intros x. rewrite A2. destruct (Z.eqb_spec x c) as [->|N]; [tauto|]. rewrite (O x). cbn. intuition congruence.
      + split; [exact B1|]. split; [exact B2|]. exists ((SysClose c, r) :: t). unfold close_all in B3. rewrite B3, <- app_assoc. reflexivity.
  Qed.
  Lemma served_spec port : 0 <= port < 65536 -> forall thrown tr, served system little port thrown tr ->
    proper tr /\ (forall x, mget x (after tr) = None) /\ (thrown = true -> failed tr) /\
    (thrown = false -> exists tr0 t fd s, tr = tr0 ++ t /\ mget fd (after tr0) = Some s /\
      so_bound s = Some ([0; 0; 0; 0], port, true) /\ so_listening s = true).
  Proof.
    intros Hp thrown tr [fd kept tr0 H|fd kept tr0 tr' H E|tr0 E].
    - destruct (serving_spec port Hp _ _ _ H) as (P & D & O & (f & S) & _). destruct (close_all_spec (fd :: kept) tr0) as (A & B & t & C); auto.
      { intros x. rewrite (O x). cbn. intuition congruence. }
      split; [exact A|]. split; [exact B|]. split; [easy|]. intros _. exists tr0, t, fd. eexists. split; [exact C|]. split; [exact S|]. split; reflexivity.
    - destruct (serving_spec port Hp _ _ _ H) as (P & D & O & (f & S) & _). assert (Ho : mget fd (after tr0) <> None) by congruence.
      pose proof (accept_spec fd tr0 Ho) as A. rewrite E in A. destruct (system tr0 (SysAccept fd)) as [r e].
      destruct A as (l & -> & A1 & A2 & A3). destruct (close_all_spec (fd :: kept) (tr0 ++ (SysAccept fd, r) :: l)) as (B1 & B2 & t & B3); auto.
      { intros x. rewrite A3, (O x). cbn. intuition congruence. }
      split; [exact B1|]. split; [exact B2|]. split; [|easy]. intros _. rewrite B3. apply failed_app, failed_app2.
      destruct A2 as [(R & _)|(_ & (c & q & Hi & R) & _)]; [exists (SysAccept fd), r; split; [now left|exact R]|].
      exists c, q. split; [right|exact R]. rewrite <- (firstn_skipn 2 l). apply in_app_iff. auto.
    - pose proof (set_up_spec port Hp) as S. rewrite E in S. destruct S as (S1 & S2 & S3). split; [exact S1|]. split; [tauto|]. split; [tauto|easy].
  Qed.
End Proofs.
