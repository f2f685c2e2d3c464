(** Proofs about the application around the server (C62-C68, C75). *)
From Coq Require Import Sorted.
From Verif Require Import Base BaseLemmas Http FileSys Files SpecFiles FilesProofs FilesServe Router SpecRouter RouterProofs
  SpecConn ConnTerm AccessLog App SpecApp.

(** ** Access log *)
Lemma recorded_app name a b : recorded name (a ++ b) =
  fold_left (fun v h => if bytes_eqb (h_name h) name then h_value h else v) b (recorded name a).
Proof. unfold recorded. now rewrite fold_left_app. Qed.
Lemma recorded_none name b : Forall (fun h => h_name h <> name) b -> forall v,
  fold_left (fun v h => if bytes_eqb (h_name h) name then h_value h else v) b v = v.
Proof.
  induction 1 as [|h b Hh _ IH]; intros v; [reflexivity|]. cbn [fold_left]. apply bytes_eqb_neq in Hh. now rewrite Hh.
Qed.
Lemma recorded_only name hs v : only_field hs name v -> recorded name hs = v.
Proof.
  intros (a & b & -> & H). apply Forall_app in H as [_ H]. rewrite recorded_app. cbn [fold_left h_name h_value].
  rewrite bytes_eqb_refl. now apply recorded_none.
Qed.
Lemma recorded_cases name hs : recorded name hs = str "-" \/ In (Hdr name (recorded name hs)) hs.
Proof.
  induction hs as [|h hs IH] using rev_ind; [now left|]. rewrite recorded_app. cbn [fold_left].
  destruct (bytes_eqb (h_name h) name) eqn:E.
  - right. apply bytes_eqb_eq in E. apply in_or_app. right. left. destruct h as [n v]; cbn in *. now subst.
  - destruct IH as [IH|IH]; [now left|right]. apply in_or_app. now left.
Qed.
Lemma count_app c a b : count c (a ++ b) = (count c a + count c b)%nat.
Proof. unfold count. now rewrite filter_app, app_length. Qed.
Lemma count_zero c a : ~ In c a -> count c a = 0%nat.
Proof.
  intros H. unfold count. destruct (filter (Z.eqb c) a) as [|x l] eqn:E; [reflexivity|].
  exfalso. assert (K : In x (filter (Z.eqb c) a)) by (rewrite E; now left). apply filter_In in K as [K1 K2].
  apply Z.eqb_eq in K2. now subst.
Qed.
Lemma count_decimal s n c : c < 48 -> decimal s n -> count c s = 0%nat.
Proof. intros Hc (H & _). apply count_zero. intros K. rewrite Forall_forall in H. apply H in K. lia. Qed.
Definition fields_clean (hs : list header) : Prop := Forall (fun h => ~ In 10 (h_value h)) hs.
Lemma recorded_clean name hs : fields_clean hs -> count 10 (recorded name hs) = 0%nat.
Proof.
  intros H. destruct (recorded_cases name hs) as [->|K]; [reflexivity|].
  unfold fields_clean in H. rewrite Forall_forall in H. apply H in K. now apply count_zero.
Qed.
(** Numerals. *)
Lemma two_digits n : 0 <= n < 100 -> digits 2 (two n) n.
Proof.
  intros H. unfold two. split; [reflexivity|]. split.
  - apply Forall_cons; [lia|]. apply Forall_cons; [lia|apply Forall_nil].
  - cbn [fold_left]. lia.
Qed.
Lemma numeral_acc s : forall acc, Forall (fun d => 48 <= d <= 57) s -> 0 <= acc ->
  acc * 10 ^ lenZ s <= fold_left (fun v d => 10 * v + (d - 48)) s acc < (acc + 1) * 10 ^ lenZ s.
Proof.
  induction s as [|d s IH]; intros acc H Ha; [cbn; lia|]. apply Forall_cons_iff in H as [Hd H]. cbn [fold_left].
  specialize (IH (10 * acc + (d - 48)) H ltac:(lia)). rewrite lenZ_cons, Z.pow_add_r by (pose proof (lenZ_nonneg s); lia).
  change (10 ^ 1) with 10. assert (0 < 10 ^ lenZ s) by (apply Z.pow_pos_nonneg; [lia|apply lenZ_nonneg]). nia.
Qed.
Lemma decimal_four s n : decimal s n -> 1000 <= n < 10000 -> digits 4 s n.
Proof.
  intros (H1 & H2 & H3) Hn. split; [|split; assumption]. destruct s as [|d s]; [destruct H3|].
  pose proof (Forall_inv H1) as Hd. cbv beta in Hd.
  assert (Hz : d <> 48). { intros ->. specialize (H3 eq_refl). subst s. cbn in H2. lia. }
  apply Forall_inv_tail in H1. cbn [fold_left] in H2. pose proof (numeral_acc s (10 * 0 + (d - 48)) H1 ltac:(lia)) as B. rewrite H2 in B.
  assert (L : lenZ s = 3); [|unfold lenZ in L; cbn [length]; lia].
  pose proof (lenZ_nonneg s) as L0. destruct (Z.lt_trichotomy (lenZ s) 3) as [L|[L|L]]; [|exact L|].
  - assert (10 ^ lenZ s <= 10 ^ 2) by (apply Z.pow_le_mono_r; lia). change (10 ^ 2) with 100 in *.
    assert ((10 * 0 + (d - 48) + 1) * 10 ^ lenZ s <= 10 * 100) by nia. lia.
  - assert (10 ^ 4 <= 10 ^ lenZ s) by (apply Z.pow_le_mono_r; lia). change (10 ^ 4) with 10000 in *.
    assert (1 * 10000 <= (10 * 0 + (d - 48)) * 10 ^ lenZ s) by nia. lia.
Qed.
Lemma month_named m : 0 <= m < 12 -> month_name m (month m) /\ lenZ (month m) = 3.
Proof.
  intros H. assert (K : m = 0 \/ m = 1 \/ m = 2 \/ m = 3 \/ m = 4 \/ m = 5 \/ m = 6 \/ m = 7 \/ m = 8 \/ m = 9 \/ m = 10 \/ m = 11) by lia.
  repeat (destruct K as [->|K]; [split; [constructor|reflexivity]|]). subst m. split; [constructor|reflexivity].
Qed.
Lemma zone_shown off : -86400 < off < 86400 -> exists zh zm H M S, zone off = (if off <? 0 then [45] else [43]) ++ zh ++ zm /\
  Z.abs off = 3600 * H + 60 * M + S /\ 0 <= M < 60 /\ 0 <= S < 60 /\ digits 2 zh H /\ digits 2 zm M.
Proof.
  intros H. exists (two (Z.abs off / 60 / 60)), (two (Z.abs off / 60 mod 60)), (Z.abs off / 60 / 60), (Z.abs off / 60 mod 60), (Z.abs off mod 60).
  split; [reflexivity|]. split; [lia|]. split; [lia|]. split; [lia|]. split; apply two_digits; lia.
Qed.
Lemma timestamp_shown t : tm_ok t -> clf_time t (clf_timestamp t).
Proof.
  intros (H1 & H2 & H3 & H4 & H5 & H6 & H7). unfold clf_timestamp. cbv zeta.
  destruct (month_named _ H2) as [Hm Lm]. destruct (zone_shown _ H7) as (zh & zm & H & M & S & Ez & E1 & E2 & E3 & E4 & E5).
  assert (Hy : digits 4 (to_string (1900 + tm_year t)) (1900 + tm_year t)) by (apply decimal_four; [apply to_string_spec; lia|exact H3]).
  set (s := [91] ++ _). assert (L : lenZ s = 28).
  { unfold s. rewrite Ez. pose proof (proj1 Hy) as Ly. pose proof (proj1 E4) as L4. pose proof (proj1 E5) as L5.
    assert (L6 : length (if tm_gmtoff t <? 0 then [45] else [43]) = 1%nat) by (destruct (_ <? _); reflexivity).
    unfold lenZ in *. unfold bytes in *. rewrite !app_length, Ly, L4, L5, L6. cbn [two length]. lia. }
  rewrite L. change (28 + 1 <=? 32) with true. cbv iota. unfold s.
  exists (two (tm_mday t)), (month (tm_mon t)), (to_string (1900 + tm_year t)), (two (tm_hour t)), (two (tm_min t)), (two (tm_sec t)),
    (if tm_gmtoff t <? 0 then [45] else [43]), zh, zm.
  repeat (split; [first [exact Hm|exact Hy|apply two_digits; lia]|]).
  split. { destruct (Z.ltb_spec (tm_gmtoff t) 0); [right|left]; auto. }
  split; [exists H, M, S; auto|]. rewrite Ez, <- !app_assoc. reflexivity.
Qed.
Lemma client_address p : peer_ok p -> address p (match client_ip p with [] => str "-" | _ :: _ => client_ip p end).
Proof.
  destruct p as [|a b c d|t|]; intros H; cbn [client_ip]; try constructor.
  - cbn [peer_ok] in H. rewrite !Forall_cons_iff in H. unfold is_byte in H. destruct H as (Ha & Hb & Hc & Hd & _).
    set (x := to_string a ++ _). assert (N : x <> []).
    { intros E. unfold x in E. apply app_eq_nil in E as [E _]. pose proof (proj1 (to_string_spec a ltac:(lia))) as (_ & _ & K). now rewrite E in K. }
    destruct x eqn:E; [easy|]. rewrite <- E. unfold x. constructor; apply to_string_spec; lia.
  - destruct H as [H _]. destruct t; [easy|constructor].
Qed.
Lemma digits_clean k s n c : c < 48 \/ 57 < c -> digits k s n -> count c s = 0%nat.
Proof. intros Hc (_ & H & _). apply count_zero. intros K. rewrite Forall_forall in H. apply H in K. lia. Qed.
Lemma time_clean c t s : c = 10 \/ c = 81 -> clf_time t s -> ~ In c s.
Proof.
  intros Hc (D & M & Y & h & m & sec & sign & zh & zm & H1 & H2 & H3 & H4 & H5 & H6 & H7 & (zH & zM & zS & _ & _ & _ & H8 & H9) & ->).
  assert (K : forall k x n, digits k x n -> ~ In c x) by (intros k x n (_ & H & _) X; rewrite Forall_forall in H; apply H in X; lia).
  assert (Km : ~ In c M) by (destruct H2; cbn; lia).
  assert (Ks : ~ In c sign) by (destruct H7 as [[-> _]|[-> _]]; cbn; lia).
  apply K in H1, H3, H4, H5, H6, H8, H9. rewrite !in_app_iff. cbn. intros X. decompose [or] X; auto; try lia.
Qed.
Lemma address_clean c p s : c = 10 \/ c = 81 -> peer_ok p -> address p s -> ~ In c s.
Proof.
  intros Hc Hp H. destruct H as [a b e d A B C D (Ha & _) (Hb & _) (He & _) (Hd & _)|t| |].
  - rewrite !in_app_iff. rewrite Forall_forall in Ha, Hb, He, Hd. intros X.
    decompose [or] X; repeat match goal with Q : In c ?l, R : forall x, In x ?l -> _ |- _ => apply R in Q end; cbn in *; lia.
  - destruct Hp as [_ Hp]. rewrite Forall_forall in Hp. intros X. apply Hp in X. lia.
  - cbn. lia.
  - cbn. lia.
Qed.
Lemma recorded_noted name hs : noted_field hs name (recorded name hs).
Proof.
  induction hs as [|h hs IH] using rev_ind; [right; split; [apply Forall_nil|reflexivity]|]. rewrite recorded_app. cbn [fold_left].
  destruct (bytes_eqb (h_name h) name) eqn:E.
  - left. apply bytes_eqb_eq in E. exists hs, []. destruct h as [n v]; cbn in E |- *. subst. split; [reflexivity|apply Forall_nil].
  - apply bytes_eqb_neq in E. destruct IH as [(a & b & Eh & Hb)|[Hn Hv]].
    + left. exists a, (b ++ [h]). split; [rewrite Eh at 1; now rewrite <- app_assoc|]. apply Forall_app. split; [exact Hb|]. now apply Forall_cons.
    + right. split; [|exact Hv]. apply Forall_app. split; [exact Hn|]. now apply Forall_cons.
Qed.
(** Every entry of the log is a line as specified. *)
Lemma log_line_made who t hs st sz : peer_ok who -> tm_ok t -> 0 <= st -> 0 <= sz ->
  exists m p, noted_field hs (str ":method") m /\ noted_field hs (str ":path") p /\
    log_line who t m p hs st sz (log_text (client_ip who) (clf_timestamp t) hs st sz).
Proof.
  intros Hw Ht Hst Hsz. exists (recorded (str ":method") hs), (recorded (str ":path") hs).
  split; [apply recorded_noted|]. split; [apply recorded_noted|].
  eexists _, _, _, _, _, _. split; [exact (client_address who Hw)|]. split; [exact (timestamp_shown t Ht)|].
  split; [exact (proj1 (to_string_spec st Hst))|]. split; [exact (proj1 (to_string_spec sz Hsz))|].
  split; [apply recorded_noted|]. split; [apply recorded_noted|]. reflexivity.
Qed.
Lemma noted_only hs n v v' : only_field hs n v -> noted_field hs n v' -> v' = v.
Proof.
  intros (a & b & -> & H) [(a' & b' & E & H')|[H' _]].
  - apply Forall_app in H as [Ha Hb]. assert (K : In (Hdr n v') (a ++ Hdr n v :: b)) by (rewrite E; apply in_elt).
    apply in_app_or in K as [K|[K|K]].
    + rewrite Forall_forall in Ha. now apply Ha in K.
    + now injection K.
    + rewrite Forall_forall in Hb. now apply Hb in K.
  - apply Forall_app in H' as [_ H']. apply Forall_cons_iff in H' as [H' _]. now cbn in H'.
Qed.
Lemma noted_clean hs n v : fields_clean hs -> noted_field hs n v -> count 10 v = 0%nat.
Proof.
  intros H [(a & b & -> & _)|[_ ->]]; [|reflexivity]. apply Forall_app in H as [_ H]. apply Forall_cons_iff in H as [H _]. now apply count_zero.
Qed.
Lemma line_lines who t m p hs st sz line : peer_ok who -> log_line who t m p hs st sz line -> fields_clean hs ->
  noted_field hs (str ":method") m -> noted_field hs (str ":path") p -> count 10 line = 1%nat.
Proof.
  intros Hw (ip & time & s1 & s2 & ref & ag & H1 & H2 & H3 & H4 & H5 & H6 & ->) Hc Hm Hp. rewrite !count_app.
  rewrite (count_zero 10 ip), (count_zero 10 time) by eauto using time_clean, address_clean.
  rewrite (noted_clean hs _ m), (noted_clean hs _ p), (noted_clean hs _ ref), (noted_clean hs _ ag) by eauto.
  rewrite (count_decimal s1 st), (count_decimal s2 sz) by (try lia; assumption). reflexivity.
Qed.
Lemma one_line who t hs st sz : peer_ok who -> tm_ok t -> fields_clean hs -> 0 <= st -> 0 <= sz ->
  count 10 (log_text (client_ip who) (clf_timestamp t) hs st sz) = 1%nat.
Proof.
  intros Hw Ht Hh Hst Hsz. destruct (log_line_made who t hs st sz Hw Ht Hst Hsz) as (m & p & Hm & Hp & HL). eapply line_lines; eauto.
Qed.
Lemma log_lines who : peer_ok who -> forall es ts, length ts = length es -> Forall tm_ok ts ->
  Forall (fun e : list header * Z * Z => fields_clean (fst (fst e)) /\ 0 <= snd (fst e) /\ 0 <= snd e) es ->
  count 10 (log_file who ts es) = length es.
Proof.
  intros Hw. induction es as [|[[hs st] sz] es IH]; intros [|t ts] Hl Ht He; try discriminate; [reflexivity|].
  apply Forall_cons_iff in Ht as [Ht Hts]. apply Forall_cons_iff in He as [(H1 & H2 & H3) He]. cbn [fst snd] in *.
  cbn [log_file log_request]. rewrite count_app, one_line by auto. rewrite IH; auto.
Qed.
Lemma only_first hs n v v' : only_field hs n v -> first_field hs n v' -> v = v'.
Proof.
  intros (a & b & -> & H) (a' & b' & E & H'). apply Forall_app in H as [Ha Hb].
  assert (K : Hdr n v = Hdr n v').
  { apply (split_unique (fun h => h_name h = n) _ _ _ _ _ _ E); [| |reflexivity|reflexivity].
    - intros y Hy. rewrite Forall_forall in Ha. auto.
    - intros y Hy. rewrite Forall_forall in H'. auto. }
  now injection K.
Qed.

(** ** Durations *)
Lemma format_shown n : 0 <= n -> shown n (format_duration n).
Proof.
  intros Hn. unfold format_duration. set (d := n / 86400). set (r := n mod 86400). set (h := r / 3600). set (r2 := r mod 3600).
  set (m := r2 / 60). set (s := r2 mod 60).
  assert (0 <= d /\ 0 <= h < 24 /\ 0 <= m < 60 /\ 0 <= s < 60 /\ n = 86400 * d + 3600 * h + 60 * m + s) as (Hd & Hh & Hm & Hs & E).
  { subst d r h r2 m s. Z.div_mod_to_equations. lia. }
  clearbody d h m s. rewrite !Z.gtb_ltb.
  destruct (Z.ltb_spec 0 d).
  { rewrite !orb_true_r, <- !app_assoc. eapply (shown_days n d h m s); auto; apply to_string_spec; lia. }
  rewrite !orb_false_r. assert (d = 0) by lia. subst d. cbn [app]. destruct (Z.ltb_spec 0 h).
  { rewrite !orb_true_r, <- !app_assoc. eapply (shown_hours n h m s); auto; try lia; apply to_string_spec; lia. }
  assert (h = 0) by lia. subst h. rewrite orb_false_r. cbn [app]. destruct (Z.ltb_spec 0 m).
  { rewrite <- !app_assoc. eapply (shown_minutes n m s); auto; try lia; apply to_string_spec; lia. }
  assert (m = 0) by lia. subst m. cbn [app]. replace s with n by lia. apply shown_seconds; [lia|]. apply to_string_spec; lia.
Qed.
Lemma digits_end s n s' n' a b c c' : decimal s n -> decimal s' n' -> ~ (48 <= c <= 57) -> ~ (48 <= c' <= 57) ->
  s ++ c :: a = s' ++ c' :: b -> s = s' /\ c = c' /\ a = b.
Proof.
  intros (H & _) (H' & _) Hc Hc'. clear n n'. revert s' H'. induction H as [|x s Hx _ IH]; intros s' H' E.
  - destruct H' as [|y s' Hy _]; cbn in E; injection E as -> ->; [auto|lia].
  - destruct H' as [|y s' Hy H']; cbn in E; injection E as -> E; [lia|]. destruct (IH s' H' E) as (-> & -> & ->). auto.
Qed.
Lemma decimal_value s n n' : decimal s n -> decimal s n' -> n = n'.
Proof. intros (_ & <- & _) (_ & <- & _). reflexivity. Qed.
Lemma shown_unique n n' o : shown n o -> shown n' o -> n = n'.
Proof.
  intros H H'. destruct H; inversion H'; subst; clear H'; cbn in *;
    repeat match goal with
    | E : ?s ++ ?c :: ?a = ?s' ++ ?c' :: ?b, D : decimal ?s ?n, D' : decimal ?s' ?n' |- _ =>
      destruct (digits_end s n s' n' a b c c' D D' ltac:(lia) ltac:(lia) E) as (? & ? & ?); clear E; subst
    | E : _ :: _ = _ :: _ |- _ => injection E as E; subst
    | K : ?x = ?y |- _ => discriminate K
    end;
    repeat match goal with
    | D : decimal ?s ?n, D' : decimal ?s ?n' |- _ =>
      first [constr_eq n n'; fail 1 | assert (n = n') by (exact (decimal_value s n n' D D')); subst; clear D]
    end; try lia.
Qed.

(** ** Invariants through middlewares *)
Lemma wraps_inv {W} (P : handler W -> Prop) (Q : W -> W -> Prop) :
  (forall w, Q w w) -> (forall a b c, Q a b -> Q b c -> Q a c) ->
  forall ms h w res, wraps W ms h w res ->
  Forall (fun m : middleware W => forall h w, P h -> Q w (fst (m h w)) /\ forall h', snd (m h w) = Some h' -> P h') ms ->
  P h -> Q w (fst res) /\ forall h', snd res = Some h' -> P h'.
Proof.
  intros Hr Ht ms h w res H. induction H as [h w|ms m h w w1 h1 res E H IH|ms m h w w1 E]; intros Hm Hh.
  - cbn. split; [auto|]. intros h' [= <-]. exact Hh.
  - apply Forall_app in Hm as [Hm Hm1]. apply Forall_cons_iff in Hm1 as [Hm1 _]. destruct (Hm1 h w Hh) as [K1 K2].
    rewrite E in K1, K2. cbn in K1, K2. destruct (IH Hm (K2 h1 eq_refl)) as [K3 K4]. split; [eapply Ht; eauto|auto].
  - apply Forall_app in Hm as [Hm Hm1]. apply Forall_cons_iff in Hm1 as [Hm1 _]. destruct (Hm1 h w Hh) as [K1 K2].
    rewrite E in K1, K2. cbn in *. split; [auto|discriminate].
Qed.

(** ** Statistics *)
Definition keeps (h : handler world) : Prop := forall rq w, w_stats (fst (h rq w)) = w_stats w.
Definition keeping (m : middleware world) : Prop := forall h w, keeps h ->
  w_stats (fst (m h w)) = w_stats w /\ forall h', snd (m h w) = Some h' -> keeps h'.
Definition polite (x : registration world) : Prop :=
  match x with AddRoute _ _ h => keeps h | AddStatic _ => True | AddMiddleware m => keeping m end.
Definition is_middleware (x : registration world) : bool := match x with AddMiddleware _ => true | _ => false end.

Fixpoint lookup (code : Z) (m : list (Z * Z)) : Z :=
  match m with [] => 0 | (c, n) :: m' => if code =? c then n else lookup code m' end.
Definition sum (m : list (Z * Z)) : Z := fold_right (fun x s => snd x + s) 0 m.
Lemma sum_cons x m : sum (x :: m) = snd x + sum m.
Proof. reflexivity. Qed.

Lemma middlewares_app xs ys : middlewares world (xs ++ ys) = middlewares world xs ++ middlewares world ys.
Proof. unfold middlewares. apply flat_map_app. Qed.
Lemma no_middlewares xs : forallb (fun x => negb (is_middleware x)) xs = true -> middlewares world xs = [].
Proof.
  induction xs as [|x xs IH]; [reflexivity|]. cbn [forallb]. intros H. apply andb_true_iff in H as [H1 H2].
  unfold middlewares in *. cbn [flat_map]. rewrite IH by auto. now destruct x.
Qed.
Lemma polite_middlewares xs : Forall polite xs -> Forall keeping (middlewares world xs).
Proof.
  induction 1 as [|x xs Hx _ IH]; [constructor|]. unfold middlewares. cbn [flat_map]. apply Forall_app. split; [|exact IH].
  destruct x; constructor; auto.
Qed.
Lemma answers_keeps xs p m d h : Forall polite xs -> chosen world xs p m d -> answers world w_os p m d h -> keeps h.
Proof.
  intros Hp Hc Ha. destruct Ha as [h|s h H|h H].
  - inversion Hc as [a b h' E _| |]; subst. apply Forall_app in Hp as [_ Hp]. now apply Forall_cons_iff in Hp as [Hp _].
  - intros rq w. destruct (H rq w) as (r & _ & ->). reflexivity.
  - intros rq w. now rewrite H.
Qed.

(** One request, with the statistics middleware outermost. *)
Definition after_request (s : stats) (a : app_answer) (s' : stats) : Prop :=
  match a with
  | Escapes => s' = s
  | Fails => total_requests s' = u64 (total_requests s + 1) /\ status_codes s' = status_codes s
  | Answers r => total_requests s' = u64 (total_requests s + 1) /\ status_codes s' = increment (rs_status r) (status_codes s)
  end.
Lemma wraps_cons {W} (m : middleware W) ms : forall h w res, wraps W (m :: ms) h w res ->
  exists w1 r1, wraps W ms h w (w1, r1) /\
    match r1 with None => res = (w1, None) | Some h1 => res = m h1 w1 end.
Proof.
  induction ms as [|m' ms IH] using rev_ind; intros h w res H.
  - inversion H as [|ms' m' h' w' w1 h1 res' E H3 H4|ms' m' h' w' w1 E H4].
    + apply (app_inj_tail ms' []) in H4 as [-> ->]. subst. exists w, (Some h). split; [constructor|].
      inversion H3; subst; [now symmetry| |]; now destruct ms.
    + apply (app_inj_tail ms' []) in H4 as [-> ->]. subst. exists w, (Some h). split; [constructor|now symmetry].
  - rewrite app_comm_cons in H. inversion H as [? ? K|ms' m0 h' w' w1 h1 res' E H3 H4|ms' m0 h' w' w1 E H4].
    + apply (app_inj_tail ms' (m :: ms)) in H4 as [-> ->]. subst. destruct (IH _ _ _ H3) as (w2 & r1 & H5 & H6).
      exists w2, r1. split; [eapply wraps_more; eauto|exact H6].
    + apply (app_inj_tail ms' (m :: ms)) in H4 as [-> ->]. subst. exists w1, None. split; [eapply wraps_throws; eauto|reflexivity].
Qed.
Lemma one_request a b rq w w' an :
  forallb (fun x => negb (is_middleware x)) a = true -> Forall polite a -> Forall polite b ->
  dispatch world w_os (configure world (a ++ AddMiddleware stats_middleware :: b)) rq w = (w', an) ->
  after_request (w_stats w) an (w_stats w').
Proof.
  intros Ha Hpa Hpb E. set (xs := a ++ AddMiddleware stats_middleware :: b) in *.
  destruct (target_spec world w_os xs (rq_path rq) (rq_method rq)) as (d & _ & Hc & _ & _).
  destruct (dispatch_spec world w_os xs rq d Hc) as (h & Hans & Hd).
  destruct (wraps_total world (middlewares world xs) h w) as [[w1 res] Hw]. rewrite (Hd w w1 res Hw) in E. clear Hd.
  assert (Em : middlewares world xs = stats_middleware :: middlewares world b).
  { subst xs. rewrite middlewares_app, no_middlewares by auto. reflexivity. }
  rewrite Em in Hw. destruct (wraps_cons _ _ _ _ _ Hw) as (w2 & r1 & H1 & H2).
  assert (Hk : keeps h).
  { destruct Hans as [h|s h H|h H].
    - inversion Hc as [a' b' h' E' _| |]; subst.
      assert (K : In (AddRoute (rq_path rq) (rq_method rq) h) xs) by (rewrite E'; apply in_or_app; right; now left).
      subst xs. apply in_app_iff in K as [K|[K|K]]; [|discriminate|].
      + rewrite Forall_forall in Hpa. now apply Hpa in K.
      + rewrite Forall_forall in Hpb. now apply Hpb in K.
    - intros rq' w'0. destruct (H rq' w'0) as (r & _ & ->). reflexivity.
    - intros rq' w'0. now rewrite H. }
  destruct (wraps_inv keeps (fun x y => w_stats y = w_stats x)) with (2 := fun x y z (A : w_stats y = w_stats x) (B : w_stats z = w_stats y) => eq_trans B A) (3 := H1) as [K1 K2]; auto.
  { eapply Forall_impl; [|apply polite_middlewares; exact Hpb]. intros m Hm h' w'0 Hh. apply (Hm h' w'0 Hh). }
  cbn [fst snd] in K1, K2. destruct r1 as [h1|].
  - unfold stats_middleware in H2. injection H2 as -> ->. pose proof (K2 h1 eq_refl) as Hk1.
    cbn [fst snd] in E. cbv zeta in E. cbn [read_clock] in E.
    match type of E with context [h1 rq ?x] => pose proof (Hk1 rq x) as Hs; destruct (h1 rq x) as [w3 [r|]] end;
      cbn [fst snd] in E, Hs; injection E as <- <-; cbn [after_request]; unfold read_clock, set_stats in *; cbn [w_stats total_requests status_codes] in *;
      rewrite Hs, K1; cbn; auto.
  - injection H2 as -> ->. injection E as <- <-. cbn. now rewrite K1.
Qed.

Inductive served_history (xs : list (registration world)) : list app_answer -> world -> Prop :=
| history_start : forall w, w_stats w = no_stats -> served_history xs [] w
| history_other : forall l w w', served_history xs l w -> w_stats w' = w_stats w -> served_history xs l w'
| history_request : forall l w rq w' a, served_history xs l w ->
    dispatch world w_os (configure world xs) rq w = (w', a) -> served_history xs (l ++ [a]) w'.

Lemma how_many_snoc f l a : how_many f (l ++ [a]) = how_many f l + (if f a then 1 else 0).
Proof. unfold how_many, lenZ. rewrite filter_app, app_length. cbn [filter]. destruct (f a); cbn [length]; lia. Qed.
Definition sorted (m : list (Z * Z)) : Prop := StronglySorted (fun x y => fst x < fst y) m.
Lemma lookup_absent c m : Forall (fun x : Z * Z => c < fst x) m -> lookup c m = 0.
Proof.
  induction 1 as [|[c' n] m H _ IH]; [reflexivity|]. cbn in *. destruct (Z.eqb_spec c c'); [lia|auto].
Qed.
Lemma increment_spec code m : sorted m -> sorted (increment code m) /\
  (forall k, k < code -> Forall (fun x : Z * Z => k < fst x) m -> Forall (fun x => k < fst x) (increment code m)) /\
  (forall c, lookup c (increment code m) = if c =? code then u64 (lookup c m + 1) else lookup c m).
Proof.
  induction m as [|[c' n] m IH]; intros Hs; cbn [increment].
  - split; [repeat constructor|]. split; [intros k Hk _; repeat constructor; auto|]. intros c. cbn. now destruct (c =? code).
  - inversion Hs as [|x l Hs' Hf]; subst. destruct (IH Hs') as (IH1 & IH2 & IH3). destruct (Z.eqb_spec code c') as [->|N].
    + split; [constructor; auto|]. split; [intros k Hk H; apply Forall_cons_iff in H as [H1 H2]; now constructor|].
      intros c. cbn [lookup]. now destruct (c =? c').
    + destruct (Z.ltb_spec code c') as [L|L].
      * split; [constructor; [auto|]; constructor; [auto|eapply Forall_impl; [|exact Hf]; cbn; lia]|].
        split; [intros k Hk H; now constructor|]. intros c. cbn [lookup]. destruct (Z.eqb_spec c code) as [->|]; [|reflexivity].
        destruct (Z.eqb_spec code c'); [lia|]. rewrite lookup_absent; [reflexivity|]. eapply Forall_impl; [|exact Hf]. cbn. lia.
      * split; [constructor; [auto|]; apply (IH2 c'); [lia|exact Hf]|].
        split; [intros k Hk H; apply Forall_cons_iff in H as [H1 H2]; constructor; auto|].
        intros c. cbn [lookup]. destruct (Z.eqb_spec c c') as [->|]; [|apply IH3]. destruct (Z.eqb_spec c' code); [lia|reflexivity].
Qed.
Lemma sum_increment code m : Forall (fun x : Z * Z => 0 <= snd x) m -> sum m + 1 < 2 ^ 64 ->
  sum (increment code m) = sum m + 1 /\ Forall (fun x : Z * Z => 0 <= snd x) (increment code m) .
Proof.
  assert (NN : forall m, Forall (fun x : Z * Z => 0 <= snd x) m -> 0 <= sum m).
  { induction 1 as [|x l Hx _ IH]; [easy|]. unfold sum in *. cbn [fold_right]. lia. }
  induction 1 as [|[c' n] m Hn Hm IH]; intros Hb; cbn [increment].
  - cbn. split; [reflexivity|]. constructor; [cbn; lia|constructor].
  - pose proof (NN m Hm) as Hnn. rewrite sum_cons in Hb. cbn [snd] in Hb. destruct (code =? c').
    + rewrite !sum_cons. cbn [snd]. cbn [snd] in Hn. replace (u64 (n + 1)) with (n + 1) by (symmetry; unfold u64; apply Z.mod_small; lia). split; [lia|]. constructor; [cbn; lia|auto].
    + destruct (code <? c').
      * rewrite !sum_cons. cbn [snd]. split; [lia|]. constructor; [cbn; lia|constructor; auto].
      * cbn [snd] in Hn. destruct IH as [IH1 IH2]; [lia|]. rewrite !sum_cons. cbn [snd].
        split; [lia|]. constructor; auto.
Qed.

Lemma history_counts a b l w :
  forallb (fun x => negb (is_middleware x)) a = true -> Forall polite a -> Forall polite b ->
  served_history (a ++ AddMiddleware stats_middleware :: b) l w ->
  total_requests (w_stats w) = u64 (how_many entered l) /\
  (forall code, lookup code (status_codes (w_stats w)) = u64 (how_many (answered_with code) l)) /\
  (how_many completed l < 2 ^ 64 -> sum (status_codes (w_stats w)) = how_many completed l).
Proof.
  intros Ha Hpa Hpb H.
  assert (G : total_requests (w_stats w) = u64 (how_many entered l) /\ sorted (status_codes (w_stats w)) /\
    (forall code, lookup code (status_codes (w_stats w)) = u64 (how_many (answered_with code) l)) /\
    (how_many completed l < 2 ^ 64 -> sum (status_codes (w_stats w)) = how_many completed l /\ Forall (fun x : Z * Z => 0 <= snd x) (status_codes (w_stats w)))).
  { induction H as [w E|l w w' H IH E|l w rq w' an H (I1 & I2 & I3 & I4) E].
    - rewrite E. cbn. split; [reflexivity|]. split; [constructor|]. split; [reflexivity|]. intros _. split; [reflexivity|constructor].
    - now rewrite E.
    - apply one_request in E; auto. unfold after_request in E.
      assert (U : forall x, u64 (u64 x + 1) = u64 (x + 1)) by (intros x; unfold u64; now rewrite Z.add_mod_idemp_l).
      destruct an as [r| |].
      + destruct E as [E1 E2]. rewrite E1, E2, I1. destruct (increment_spec (rs_status r) _ I2) as (S1 & _ & S3).
        split; [rewrite how_many_snoc; cbn [entered]; now rewrite U|]. split; [auto|]. split.
        * intros code. rewrite S3, I3, how_many_snoc. cbn [answered_with]. rewrite (Z.eqb_sym (rs_status r)). destruct (code =? rs_status r); [apply U|].
          now rewrite Z.add_0_r.
        * rewrite how_many_snoc. cbn [completed]. intros Hb. destruct I4 as [I4 I5]; [lia|]. rewrite <- I4 in *. apply sum_increment; auto.
      + destruct E as [E1 E2]. rewrite E1, E2, I1, how_many_snoc. cbn [entered]. split; [now rewrite U|]. split; [auto|].
        split; [intros code; rewrite I3, how_many_snoc; cbn [answered_with]; now rewrite Z.add_0_r|].
        rewrite how_many_snoc. cbn [completed]. rewrite Z.add_0_r. exact I4.
      + rewrite E, I1, how_many_snoc. cbn [entered]. rewrite Z.add_0_r. split; [auto|]. split; [auto|].
        split; [intros code; rewrite I3, how_many_snoc; cbn [answered_with]; now rewrite Z.add_0_r|].
        rewrite how_many_snoc. cbn [completed]. rewrite Z.add_0_r. exact I4. }
  destruct G as (G1 & _ & G3 & G4). split; [auto|]. split; [auto|]. intros Hb. now apply G4.
Qed.

(** ** The program's own handlers *)
Section Main.
  Variable page : stats -> Z -> bytes.

  Lemma test_routes_polite : Forall polite test_routes.
  Proof. repeat constructor. Qed.
  Lemma status_handler_keeps : keeps (status_handler page).
  Proof. intros rq w. reflexivity. Qed.
  Lemma custom_404_keeping path : keeping (custom_404 path).
  Proof.
    intros h w Hh. cbn. split; [reflexivity|]. intros h' E. injection E as <-. intros rq w'. specialize (Hh rq w').
    destruct (h rq w') as [w2 [r|]]; [|exact Hh]. cbn in *. now destruct (rs_status r =? 404).
  Qed.
  Lemma main_split a : a_status_page a = true -> exists xs ys,
    main_registrations page a = xs ++ AddMiddleware stats_middleware :: ys /\
    forallb (fun x => negb (is_middleware x)) xs = true /\ Forall polite xs /\ Forall polite ys.
  Proof.
    intros H. unfold main_registrations. rewrite H. unfold status_page.
    eexists (if a_under_test a then test_routes else []), _. split; [reflexivity|].
    split; [now destruct (a_under_test a)|]. split; [destruct (a_under_test a); [exact test_routes_polite|constructor]|].
    constructor; [exact status_handler_keeps|]. apply Forall_app. split.
    - destruct (a_static_map a) as [|u [|r [|]]]; repeat constructor.
    - destruct (a_status_404_file_path a) as [|c f]; constructor; [apply custom_404_keeping|constructor].
  Qed.

  (** None of them throws. *)
  Definition total (h : handler world) : Prop := forall rq w, snd (h rq w) <> None.
  Definition total_registration (x : registration world) : Prop :=
    match x with
    | AddRoute _ _ h => total h
    | AddStatic _ => True
    | AddMiddleware m => forall h w, total h -> exists h', m h w = (w, Some h') /\ total h'
    end.
  Lemma test_routes_total : Forall total_registration test_routes.
  Proof. repeat (apply Forall_cons; [intros rq w; unfold handler_of; cbn [snd]; easy|]). apply Forall_nil. Qed.
  Lemma main_total a : Forall total_registration (main_registrations page a).
  Proof.
    unfold main_registrations. apply Forall_app. split; [destruct (a_under_test a); [exact test_routes_total|constructor]|].
    apply Forall_app. split.
    - destruct (a_status_page a); [|constructor]. unfold status_page.
      apply Forall_cons; [|apply Forall_cons; [intros rq w; unfold status_handler; cbn [read_clock snd]; discriminate|apply Forall_nil]].
      intros h w Hh. unfold stats_middleware. eexists. split; [reflexivity|]. intros rq w'. cbv zeta. cbn [read_clock].
      match goal with |- context [h rq ?x] => pose proof (Hh rq x); destruct (h rq x) as [w3 [r|]] end; easy.
    - apply Forall_app. split; [destruct (a_static_map a) as [|u [|r [|]]]; repeat constructor|].
      destruct (a_status_404_file_path a) as [|c f]; constructor; [|constructor].
      intros h w Hh. eexists. split; [reflexivity|]. intros rq w'.
      match goal with |- context [h rq ?x] => pose proof (Hh rq x); destruct (h rq x) as [w3 [r|]] end; [|easy].
      now destruct (rs_status r =? 404).
  Qed.
  Lemma main_answers a rq w : exists w' r, main_app page a rq w = (w', Answers r).
  Proof.
    unfold main_app. set (xs := main_registrations page a). pose proof (main_total a) as HT. fold xs in HT.
    destruct (target_spec world w_os xs (rq_path rq) (rq_method rq)) as (d & _ & Hc & _ & _).
    destruct (dispatch_spec world w_os xs rq d Hc) as (h & Hans & Hd).
    assert (Hh : total h).
    { destruct Hans as [h|s h H|h H].
      - inversion Hc as [a' b' h' E' _| |]; subst. rewrite E' in HT. apply Forall_app in HT as [_ HT]. now apply Forall_cons_iff in HT as [HT _].
      - intros rq' w'. destruct (H rq' w') as (r & _ & ->). easy.
      - intros rq' w'. now rewrite H. }
    assert (HM : Forall (fun m : middleware world => forall h w, total h -> exists h', m h w = (w, Some h') /\ total h') (middlewares world xs)).
    { clear -HT. induction HT as [|x xs Hx _ IH]; [constructor|]. unfold middlewares. cbn [flat_map]. apply Forall_app.
      split; [|exact IH]. destruct x; constructor; auto. }
    assert (HW : exists h', wraps world (middlewares world xs) h w (w, Some h') /\ total h').
    { clear -HM Hh. revert h Hh. induction (middlewares world xs) as [|m ms IH] using rev_ind; intros h Hh.
      - exists h. split; [constructor|auto].
      - apply Forall_app in HM as [HM Hm]. apply Forall_cons_iff in Hm as [Hm _]. destruct (Hm h w Hh) as (h1 & E & H1).
        destruct (IH HM h1 H1) as (h' & H2 & H3). exists h'. split; [eapply wraps_more; eauto|auto]. }
    destruct HW as (h' & HW & Ht). rewrite (Hd w w (Some h') HW). specialize (Ht rq w). destruct (h' rq w) as [w' [r|]]; [|easy].
    cbn. eauto.
  Qed.
End Main.

(** ** The custom 404 page *)
Section Page.
  Variable page : stats -> Z -> bytes.

  Definition without_404 (a : args) : args :=
    Args (a_cleartext a) (a_cert_path a) (a_key_path a) (a_static_map a) [] (a_under_test a) (a_status_page a).
  Lemma main_404 a : a_status_404_file_path a <> [] ->
    main_registrations page a = main_registrations page (without_404 a) ++ [AddMiddleware (custom_404 (a_status_404_file_path a))].
  Proof.
    intros H. unfold main_registrations, without_404. cbn [a_under_test a_status_page a_static_map a_status_404_file_path].
    destruct (a_status_404_file_path a) as [|c f]; [easy|]. now rewrite app_nil_r, !app_assoc.
  Qed.
  Definition target (r : router world) (p m : bytes) : handler world :=
    match find_route world (r_routes world r) p m with
    | Some h => h
    | None => if bytes_eqb m (str "GET") || bytes_eqb m (str "HEAD")
              then find_static world w_os (r_static world r) p m (default_handler world)
              else default_handler world
    end.
  Definition chain_of (ms : list (middleware world)) (h : handler world) (w : world) : world * option (handler world) :=
    match ms with [] => (w, Some h) | m :: _ => m h w end.
  Lemma main_chain a h w : a_status_404_file_path a = [] ->
    r_chain world (configure world (main_registrations page a)) h w =
    if a_status_page a then stats_middleware h w else (w, Some h).
  Proof.
    intros H. pose proof (configure_chain world (main_registrations page a) h w) as K.
    assert (E : middlewares world (main_registrations page a) = if a_status_page a then [stats_middleware] else []).
    { unfold main_registrations. rewrite H, !middlewares_app.
      assert (E1 : middlewares world (if a_under_test a then test_routes else []) = []) by now destruct (a_under_test a).
      rewrite E1. destruct (a_status_page a); destruct (a_static_map a) as [|u [|r [|]]]; reflexivity. }
    rewrite E in K. destruct (a_status_page a).
    - eapply wraps_unique; [exact K|]. apply (wraps_more world []) with (w1 := w) (h1 := match snd (stats_middleware h w) with Some x => x | None => h end);
        [reflexivity|]. constructor.
    - eapply wraps_unique; [exact K|constructor].
  Qed.

  Lemma page_shown a rq w w' r : a_status_404_file_path a <> [] ->
    main_app page (without_404 a) rq w = (w', Answers r) ->
    main_app page a rq w = (w', Answers (if rs_status r =? 404
      then let f := file_response (w_os w') (a_status_404_file_path a) false in Response 404 (rs_headers f) (rs_body f) else r)).
  Proof.
    intros Hf. unfold main_app. rewrite (main_404 a Hf), configure_snoc. set (R := configure world (main_registrations page (without_404 a))).
    unfold dispatch, get_handler. cbn [register add_middleware r_routes r_static r_chain].
    fold (target R (rq_path rq) (rq_method rq)). set (t := target R (rq_path rq) (rq_method rq)).
    assert (HC : forall h w, r_chain world R h w = if a_status_page a then stats_middleware h w else (w, Some h)).
    { intros h w0. exact (main_chain (without_404 a) h w0 eq_refl). }
    assert (Hos : forall w0, w_os (fst (t rq w0)) = w_os w0).
    { intros w0. destruct (target_spec world w_os (main_registrations page (without_404 a)) (rq_path rq) (rq_method rq)) as (d & h & Hc & Ha & Hg).
      subst t. unfold target. subst R. destruct (configure_parts world (main_registrations page (without_404 a))) as [-> ->].
      destruct (find_route world _ _ _) as [h0|] eqn:E.
      - (* one of the program's own routes *)
        pose proof (find_route_spec world (main_registrations page (without_404 a)) (rq_path rq) (rq_method rq)) as K. rewrite E in K.
        destruct K as (x & y & K & _). assert (Hin : In (AddRoute (rq_path rq) (rq_method rq) h0) (main_registrations page (without_404 a)))
          by (rewrite K; apply in_or_app; right; now left). clear -Hin.
        assert (G : forall z, In z (main_registrations page (without_404 a)) ->
          match z with AddRoute _ _ h => w_os (fst (h rq w0)) = w_os w0 | _ => True end).
        { apply Forall_forall. unfold main_registrations. apply Forall_app. split.
          - destruct (a_under_test _); [|constructor]. unfold test_routes. repeat (apply Forall_cons; [reflexivity|]). apply Forall_nil.
          - apply Forall_app. split; [destruct (a_status_page _); [|constructor]; unfold status_page; repeat (apply Forall_cons; [try exact I; reflexivity|]); apply Forall_nil|].
            apply Forall_app. split; [destruct (a_static_map _) as [|u [|r [|]]]; repeat constructor|].
            cbn [without_404 a_status_404_file_path]. constructor. }
        exact (G _ Hin).
      - destruct (_ || _); [|reflexivity].
        assert (G : forall ss t0, w_os (fst (t0 rq w0)) = w_os w0 ->
          w_os (fst (find_static world w_os ss (rq_path rq) (rq_method rq) t0 rq w0)) = w_os w0).
        { clear. induction ss as [|s ss IH]; intros t0 H; [exact H|]. cbn [find_static]. apply IH.
          destruct (static_matches s _); [|exact H]. unfold static_route. now destruct (static_handle _ _ _ _). }
        apply G. reflexivity. }
    rewrite HC. intros E. cbn [custom_404]. rewrite HC. clear HC. destruct (a_status_page a).
    - unfold stats_middleware in *. cbv zeta in *. cbn [read_clock] in *.
      match type of E with context [t rq ?x] => pose proof (Hos x) as Ho; destruct (t rq x) as [w3 [r0|]] end; [|discriminate E].
      cbn [fst] in Ho. injection E as <- <-. cbn [w_os set_stats].
      destruct (rs_status r0 =? 404) eqn:E4; [|reflexivity]. cbn [rs_status]. apply Z.eqb_eq in E4. now rewrite E4.
    - pose proof (Hos w) as Ho. destruct (t rq w) as [w3 [r0|]]; [|discriminate E]. injection E as <- <-. now destruct (rs_status r0 =? 404).
  Qed.

  Lemma head_empty a rq w w' r : a_status_404_file_path a = [] -> rq_method rq = str "HEAD" ->
    main_app page a rq w = (w', Answers r) -> rs_body r = [].
  Proof.
    intros Hf Hm. unfold main_app, dispatch. set (xs := main_registrations page a).
    destruct (target_spec world w_os xs (rq_path rq) (rq_method rq)) as (d & h & Hc & Ha & Hg). rewrite Hg. subst xs. rewrite main_chain by auto.
    assert (Hh : forall rq w, match snd (h rq w) with Some r => rs_body r = [] | None => True end).
    { destruct Ha as [h|s h H|h H].
      - exfalso. inversion Hc as [x y h' E' _| |]; subst.
        assert (K : In (AddRoute (rq_path rq) (rq_method rq) h) (main_registrations page a)) by (rewrite E'; apply in_or_app; right; now left).
        clear -K Hm. assert (G : forall z, In z (main_registrations page a) -> match z with AddRoute _ m _ => m = str "GET" | _ => True end).
        { apply Forall_forall. unfold main_registrations. apply Forall_app. split.
          - destruct (a_under_test a); [|constructor]. unfold test_routes. repeat (apply Forall_cons; [reflexivity|]). apply Forall_nil.
          - apply Forall_app. split; [destruct (a_status_page a); [|constructor]; unfold status_page; repeat (apply Forall_cons; [try exact I; reflexivity|]); apply Forall_nil|].
            apply Forall_app. split; [destruct (a_static_map a) as [|u [|r [|]]]; repeat constructor|].
            destruct (a_status_404_file_path a); repeat constructor. }
        apply G in K. rewrite Hm in K. discriminate K.
      - intros rq0 w0. destruct (H rq0 w0) as (r0 & E & ->). cbn [snd]. rewrite Hm, bytes_eqb_refl in E.
        unfold static_handle in E. destruct (get_relative_path s (rq_path rq)); try discriminate E. cbn [obind] in E.
        destruct (sanitize_path _ _ _) as [p|]; [|now injection E as <-]. injection E as <-. unfold file_response, head_response.
        destruct (is_readable _ _); [|reflexivity]. now destruct (get_file_size _ _).
      - intros rq0 w0. now rewrite H. }
    destruct (a_status_page a).
    - unfold stats_middleware. cbv zeta. cbn [read_clock].
      match goal with |- context [h rq ?x] => pose proof (Hh rq x) as Ho; destruct (h rq x) as [w3 [r0|]] end; intros E; [|discriminate E].
      injection E as <- <-. exact Ho.
    - pose proof (Hh rq w) as Ho. destruct (h rq w) as [w3 [r0|]]; intros E; [|discriminate E]. injection E as <- <-. exact Ho.
  Qed.
End Page.

(** The file at [path], read to its end. *)
Definition readable_file (o : os) (path : bytes) (l : location) (b : bytes) : Prop :=
  path <> [] /\ ~ In 0 path /\
  resolves (os_fs o) (os_links o) (if absolute path then [] else os_cwd o) (elements path) l /\
  os_fs o l = Some (EFile true true b).
Lemma resolve_readable o path l b : readable_file o path l b -> resolve o path = At l.
Proof.
  intros (H1 & H2 & H3 & _). unfold resolve. rewrite c_str_id by auto. apply walk_resolves in H3.
  destruct path; [easy|]. exact H3.
Qed.
Lemma page_file o path l b : readable_file o path l b ->
  file_response o path false = Response 200 [Hdr (str "content-type") (get_mime_type path)] b.
Proof.
  intros H. pose proof (resolve_readable _ _ _ _ H) as E. destruct H as (_ & _ & _ & Hf).
  unfold file_response, is_readable, get_response, read_file. now rewrite E, Hf.
Qed.
Lemma page_no_file o path : (forall l b, ~ readable_file o path l b) -> ~ In 0 path ->
  rs_body (file_response o path false) = [].
Proof.
  intros H Hz. unfold file_response, is_readable, get_response, read_file.
  destruct (resolve o path) as [l|e] eqn:E; [|reflexivity].
  destruct (os_fs o l) as [[[] [] b|?|?|]|] eqn:El; try reflexivity. exfalso. apply (H l b).
  unfold resolve in E. rewrite c_str_id in E by auto. destruct path as [|c p]; [discriminate|].
  split; [easy|]. split; [auto|]. split; [|auto]. apply walk_resolves. exact E.
Qed.
