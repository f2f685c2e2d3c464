(** Proofs about the status page (C86, C87). *)
From Coq Require Import Sorted.
From Verif Require Import Base BaseLemmas Http FileSys Files SpecFiles FilesProofs FilesServe Router SpecRouter RouterProofs
  SpecConn ConnTerm AccessLog App SpecApp AppProofs SpecProgram ProgramProofs StatusText StatusPage SpecStatus.

(** ** Doubles *)
Lemma half_even_err n d : 0 < d -> 2 * Z.abs (half_even n d * d - n) <= d.
Proof.
  intros H. unfold half_even. pose proof (Z.div_mod n d ltac:(lia)) as E. pose proof (Z.mod_pos_bound n d H) as B.
  set (q := n / d) in *. set (r := n mod d) in *.
  destruct (2 * r <? d) eqn:E1; [replace (q * d - n) with (- r) by lia; lia|].
  destruct (2 * r >? d) eqn:E2; [replace ((q + 1) * d - n) with (d - r) by lia; lia|].
  destruct (Z.even q); [replace (q * d - n) with (- r) by lia|replace ((q + 1) * d - n) with (d - r) by lia]; lia.
Qed.
Lemma pow_pos n : 0 < 2 ^ Z.max 0 n.
Proof. apply Z.pow_pos_nonneg; lia. Qed.
Lemma scale a b k : b * 2 ^ Z.max 0 k <= a * 2 ^ Z.max 0 (- k) ->
  2 ^ 52 * (b * 2 ^ Z.max 0 (k - 52)) <= a * 2 ^ Z.max 0 (- (k - 52)).
Proof.
  intros H. apply Z.mul_le_mono_pos_r with (p := 2 ^ Z.max 0 (- k)); [apply pow_pos|].
  replace (2 ^ 52 * (b * 2 ^ Z.max 0 (k - 52)) * 2 ^ Z.max 0 (- k)) with (b * 2 ^ Z.max 0 k * 2 ^ Z.max 0 (- (k - 52))).
  - pose proof (pow_pos (- (k - 52))). replace (a * 2 ^ Z.max 0 (- (k - 52)) * 2 ^ Z.max 0 (- k)) with (a * 2 ^ Z.max 0 (- k) * 2 ^ Z.max 0 (- (k - 52))) by ring.
    now apply Z.mul_le_mono_nonneg_r; [lia|].
  - replace (2 ^ 52 * (b * 2 ^ Z.max 0 (k - 52)) * 2 ^ Z.max 0 (- k)) with (b * (2 ^ 52 * 2 ^ Z.max 0 (k - 52) * 2 ^ Z.max 0 (- k))) by ring.
    rewrite <- Z.mul_assoc. f_equal. rewrite <- !Z.pow_add_r by lia. f_equal. lia.
Qed.
Lemma to_double_err a b : 0 <= a -> 0 < b -> let (c, f) := to_double a b in
  0 <= c /\ 0 < f /\ 2 ^ 53 * Z.abs (c * b - a * f) <= a * f.
Proof.
  intros Ha Hb. unfold to_double. destruct (Z.eqb_spec a 0) as [->|Hn]; [lia|].
  set (k := Z.log2 a - Z.log2 b).
  set (k' := if b * 2 ^ Z.max 0 k <=? a * 2 ^ Z.max 0 (- k) then k else k - 1).
  assert (Hk : b * 2 ^ Z.max 0 k' <= a * 2 ^ Z.max 0 (- k')).
  { unfold k'. destruct (Z.leb_spec (b * 2 ^ Z.max 0 k) (a * 2 ^ Z.max 0 (- k))) as [H|_]; [exact H|].
    pose proof (Z.log2_spec a ltac:(lia)) as [La _]. pose proof (Z.log2_spec b ltac:(lia)) as [_ Lb].
    pose proof (Z.log2_nonneg a). pose proof (Z.log2_nonneg b). rewrite Z.pow_succ_r in Lb by lia.
    apply Z.mul_le_mono_pos_r with (p := 2 ^ Z.log2 b); [apply Z.pow_pos_nonneg; lia|].
    assert (E : 2 ^ Z.max 0 (k - 1) * (2 * 2 ^ Z.log2 b) = 2 ^ Z.log2 a * 2 ^ Z.max 0 (- (k - 1))).
    { rewrite <- Z.pow_succ_r, <- !Z.pow_add_r by lia. f_equal. lia. }
    pose proof (pow_pos (k - 1)). pose proof (pow_pos (- (k - 1))). 
    assert (P : 0 < 2 ^ Z.log2 b) by (apply Z.pow_pos_nonneg; lia).
    apply Z.mul_le_mono_nonneg_r; [lia|].
    apply Z.mul_le_mono_pos_r with (p := 2); [lia|].
    assert (F : b * 2 ^ Z.max 0 (k - 1) <= 2 * 2 ^ Z.log2 b * 2 ^ Z.max 0 (k - 1)) by (apply Z.mul_le_mono_nonneg_r; lia).
    assert (G : 2 ^ Z.log2 a * 2 ^ Z.max 0 (- (k - 1)) <= a * 2 ^ Z.max 0 (- (k - 1))) by (apply Z.mul_le_mono_nonneg_r; lia).
    lia. }
  apply scale in Hk. set (e := k' - 52) in *. set (A := a * 2 ^ Z.max 0 (- e)) in *. set (B := b * 2 ^ Z.max 0 e) in *.
  assert (HB : 0 < B) by (unfold B; pose proof (pow_pos e); nia).
  pose proof (half_even_err A B HB) as Hm. set (m := half_even A B) in *.
  split; [|split; [apply pow_pos|]].
  - assert (0 <= m) by nia. pose proof (pow_pos e). nia.
  - replace (m * 2 ^ Z.max 0 e * b - a * 2 ^ Z.max 0 (- e)) with (m * B - A) by (unfold A, B; ring). fold A. lia.
Qed.

Lemma average_err d n : 0 <= d -> 0 < n -> let (r, f) := average d n in
  0 <= r /\ 0 < f /\ 2 ^ 50 * Z.abs (1000 * n * r - d * f) <= d * f.
Proof.
  intros Hd Hn. unfold average.
  pose proof (to_double_err d 1 Hd ltac:(lia)) as H1. destruct (to_double d 1) as [x dx]. destruct H1 as (X1 & X2 & X3).
  pose proof (to_double_err n 1 ltac:(lia) ltac:(lia)) as H2. destruct (to_double n 1) as [y dy]. destruct H2 as (Y1 & Y2 & Y3).
  assert (Hy : 0 < y) by nia.
  pose proof (to_double_err (x * dy) (dx * y) ltac:(nia) ltac:(nia)) as H3. destruct (to_double (x * dy) (dx * y)) as [q dq]. destruct H3 as (Q1 & Q2 & Q3).
  pose proof (to_double_err q (dq * 1000) Q1 ltac:(lia)) as H4. destruct (to_double q (dq * 1000)) as [r dr]. destruct H4 as (R1 & R2 & R3).
  split; [exact R1|]. split; [exact R2|].
  change (2 ^ 53) with 9007199254740992 in *. change (2 ^ 50) with 1125899906842624. set (U := 9007199254740992) in *.
  (* the four bounds *)
  assert (BX : (U - 1) * (d * dx) <= U * x <= (U + 1) * (d * dx)) by lia.
  assert (BY : (U - 1) * (n * dy) <= U * y <= (U + 1) * (n * dy)) by lia.
  assert (BQ : (U - 1) * (x * dy * dq) <= U * (q * (dx * y)) <= (U + 1) * (x * dy * dq)) by lia.
  assert (BR : (U - 1) * (q * dr) <= U * (r * (dq * 1000)) <= (U + 1) * (q * dr)) by lia.
  clear X3 Y3 Q3 R3.
  assert (UP : U * U * (U - 1) * (1000 * n * r) <= (U + 1) * (U + 1) * (U + 1) * (d * dr)).
  { apply Z.mul_le_mono_pos_r with (p := dq * dy * dx); [apply Z.mul_pos_pos; [apply Z.mul_pos_pos|]; assumption|].
    assert (M : forall k u v, 0 <= k -> u <= v -> k * u <= k * v) by (intros; now apply Z.mul_le_mono_nonneg_l).
    pose proof (M (U * (U * (dx * y))) _ _ ltac:(nia) (proj2 BR)) as A1.
    pose proof (M (U * (dr * (U + 1))) _ _ ltac:(nia) (proj2 BQ)) as A2.
    pose proof (M ((U + 1) * (U + 1) * (dr * dy * dq)) _ _ ltac:(nia) (proj2 BX)) as A3.
    pose proof (M (U * U * (1000 * r * dq * dx)) _ _ ltac:(nia) (proj1 BY)) as A4.
    clearbody U. lia. }
  assert (LO : (U - 1) * (U - 1) * (U - 1) * (d * dr) <= U * U * (U + 1) * (1000 * n * r)).
  { apply Z.mul_le_mono_pos_r with (p := dq * dy * dx); [apply Z.mul_pos_pos; [apply Z.mul_pos_pos|]; assumption|].
    assert (M : forall k u v, 0 <= k -> u <= v -> k * u <= k * v) by (intros; now apply Z.mul_le_mono_nonneg_l).
    pose proof (M (U * (U * (dx * y))) _ _ ltac:(nia) (proj1 BR)) as A1.
    pose proof (M (U * (dr * (U - 1))) _ _ ltac:(nia) (proj1 BQ)) as A2.
    pose proof (M ((U - 1) * (U - 1) * (dr * dy * dq)) _ _ ltac:(nia) (proj1 BX)) as A3.
    pose proof (M (U * U * (1000 * r * dq * dx)) _ _ ltac:(nia) (proj2 BY)) as A4.
    clearbody U. lia. }
  assert (0 <= d * dr) by nia. assert (0 <= 1000 * n * r) by nia. generalize dependent (d * dr). generalize dependent (1000 * n * r).
  clear. intros a Ha b Hb UP LO. subst U. lia.
Qed.

Lemma fixed2_spec r f : 0 <= r -> 0 < f -> exists h, hundredths (fixed2 (r, f)) h /\ 0 <= h /\ 2 * Z.abs (h * f - 100 * r) <= f.
Proof.
  intros Hr Hf. exists (half_even (100 * r) f). pose proof (half_even_err (100 * r) f Hf) as E.
  assert (H : 0 <= half_even (100 * r) f) by nia. split; [|split; [exact H|exact E]].
  unfold fixed2. cbn [fst snd]. set (h := half_even _ _) in *. exists (to_string (h / 100)), (48 + h mod 100 / 10), (48 + h mod 10).
  split; [|split; [apply to_string_spec; lia|split; reflexivity]].
  unfold two. replace (h mod 100 mod 10) with (h mod 10) by lia. reflexivity.
Qed.
Lemma latency_spec d n : 0 <= d -> 0 < n -> exists h, hundredths (latency_text d n) h /\ 0 <= h /\
  2 ^ 50 * Z.abs (10 * n * h - d) <= 2 ^ 50 * (5 * n) + d.
Proof.
  intros Hd Hn. unfold latency_text. replace (n >? 0) with true by lia. replace (d <? 0) with false by lia.
  rewrite (Z.abs_eq d Hd). cbn [Datatypes.app].
  pose proof (average_err d n Hd Hn) as A. destruct (average d n) as [r f]. destruct A as (Hr & Hf & A).
  destruct (fixed2_spec r f Hr Hf) as (h & H1 & H2 & H3). exists h. split; [exact H1|]. split; [exact H2|].
  change (2 ^ 50) with 1125899906842624 in *.
  apply Z.mul_le_mono_pos_r with (p := f); [exact Hf|].
  assert (E : Z.abs (10 * n * h - d) * f = Z.abs (10 * n * h * f - d * f)).
  { rewrite <- (Z.abs_eq f) at 1 by lia. rewrite <- Z.abs_mul. f_equal. ring. }
  assert (F : 2 * Z.abs (10 * n * h * f - 1000 * n * r) <= 10 * n * f).
  { replace (10 * n * h * f - 1000 * n * r) with (10 * n * (h * f - 100 * r)) by ring. rewrite Z.abs_mul, (Z.abs_eq (10 * n)) by lia. nia. }
  rewrite <- Z.mul_assoc, E. lia.
Qed.

(** ** One request *)
Definition calm (h : handler world) : Prop := forall rq w,
  w_stats (fst (h rq w)) = w_stats w /\ w_clock (fst (h rq w)) = w_clock w /\ (w_readings w <= w_readings (fst (h rq w)))%nat /\
  match snd (h rq w) with Some r => 0 <= rs_status r < 1000 | None => True end.
Lemma calm_same h : (forall rq w, fst (h rq w) = w /\ match snd (h rq w) with Some r => 0 <= rs_status r < 1000 | None => True end) -> calm h.
Proof. intros H rq w. destruct (H rq w) as [-> K]. auto. Qed.
Lemma file_status o p head : 0 <= rs_status (file_response o p head) < 1000.
Proof.
  unfold file_response, head_response, get_response. destruct (is_readable o p); [|cbn; lia]. destruct head; [destruct (get_file_size o p)|destruct (read_file o p)]; cbn; lia.
Qed.
Section Steps.
  Variable page : stats -> Z -> bytes.
  Variable a : args.
  Hypothesis Ha : a_status_page a = true.

  Definition inner (t : handler world) : handler world :=
    match a_status_404_file_path a with
    | [] => t
    | path => fun rq w => let (w, res) := t rq w in
        match res with
        | None => (w, None)
        | Some r => if rs_status r =? 404 then
                      let f := file_response (w_os w) path false in (w, Some (Response 404 (rs_headers f) (rs_body f)))
                    else (w, Some r)
        end
    end.
  Lemma inner_calm t : calm t -> calm (inner t).
  Proof.
    intros H. unfold inner. destruct (a_status_404_file_path a) as [|c p]; [exact H|]. intros rq w. specialize (H rq w).
    destruct (t rq w) as [w1 [r|]]; [|exact H]. destruct (rs_status r =? 404); [|exact H]. cbn [fst snd] in *.
    destruct H as (H1 & H2 & H3 & _). split; [exact H1|]. split; [exact H2|]. split; [exact H3|]. cbn; lia.
  Qed.
  Lemma target_calm p m : calm (target (configure world (main_registrations page a)) p m).
  Proof.
    unfold target. destruct (configure_parts world (main_registrations page a)) as [-> ->].
    destruct (find_route world _ _ _) as [h0|] eqn:E.
    - pose proof (find_route_spec world (main_registrations page a) p m) as K. rewrite E in K. destruct K as (x & y & K & _).
      assert (G : Forall (fun z => match z with AddRoute _ _ h => calm h | _ => True end) (main_registrations page a)).
      { unfold main_registrations. apply Forall_app. split.
        - destruct (a_under_test _); [|constructor]. unfold test_routes. repeat (apply Forall_cons; [apply calm_same; intros rq w; unfold handler_of; cbn [fst snd]; split; [reflexivity|try destruct (w_no_new_privs w); cbn [rs_status]; lia]|]). apply Forall_nil.
        - apply Forall_app. split.
          + destruct (a_status_page _); [|constructor]. unfold status_page. apply Forall_cons; [exact I|]. apply Forall_cons; [|apply Forall_nil].
            intros rq w. unfold status_handler, read_clock. cbn [fst snd w_stats w_clock w_readings rs_status]. repeat split; lia.
          + apply Forall_app. split; [destruct (a_static_map _) as [|u [|r [|]]]; repeat constructor|].
            destruct (a_status_404_file_path a); repeat constructor. }
      rewrite K in G. apply Forall_app in G as [_ G]. now apply Forall_cons_iff in G as [G _].
    - destruct (_ || _); [|apply calm_same; intros rq w; split; [reflexivity|cbn; lia]].
      assert (G : forall ss t0, calm t0 -> calm (find_static world w_os ss p m t0)).
      { clear. induction ss as [|s ss IH]; intros t0 H; [exact H|]. cbn [find_static]. apply IH.
        destruct (static_matches s _); [|exact H]. apply calm_same. intros rq w. unfold static_route, static_handle.
        destruct (get_relative_path s p) as [rel| | |]; cbn [obind]; try (split; [reflexivity|exact I]).
        destruct (sanitize_path _ _ _) as [q|]; (split; [reflexivity|]); [apply file_status|cbn; lia]. }
      apply G. apply calm_same. intros rq w. split; [reflexivity|cbn; lia].
  Qed.
  Lemma target_without p m : target (configure world (main_registrations page (without_404 a))) p m =
    target (configure world (main_registrations page a)) p m.
  Proof.
    unfold target. destruct (configure_parts world (main_registrations page a)) as [-> ->].
    destruct (configure_parts world (main_registrations page (without_404 a))) as [-> ->].
    destruct (a_status_404_file_path a) as [|c f] eqn:Ef.
    - unfold main_registrations, without_404. cbn [a_under_test a_status_page a_static_map a_status_404_file_path]. now rewrite Ef.
    - rewrite (main_404 page a) by (rewrite Ef; discriminate). unfold routes_of, statics_of. rewrite !flat_map_app. cbn [flat_map Datatypes.app]. now rewrite !app_nil_r.
  Qed.
  Lemma main_form rq w : exists h, calm h /\
    (rq_path rq = str "/_ion/status" -> rq_method rq = str "GET" -> forall w, h rq w = status_handler page rq w) /\
    main_app page a rq w =
      match snd (stats_middleware h w) with
      | None => (w, Escapes)
      | Some f => let (w2, x) := f rq w in (w2, match x with Some r => Answers r | None => Fails end)
      end.
  Proof.
    set (t := target (configure world (main_registrations page a)) (rq_path rq) (rq_method rq)). exists (inner t).
    split; [apply inner_calm, target_calm|]. split.
    - intros Hp Hm w'. assert (Et : t = status_handler page).
      { unfold t, target. rewrite Hp, Hm. destruct (configure_parts world (main_registrations page a)) as [-> _].
        unfold main_registrations. rewrite Ha. now destruct (a_under_test a). }
      rewrite Et. unfold inner. now destruct (a_status_404_file_path a).
    - unfold main_app, dispatch, get_handler. destruct (a_status_404_file_path a) as [|c f] eqn:Ef.
      + fold (target (configure world (main_registrations page a)) (rq_path rq) (rq_method rq)). fold t.
        rewrite main_chain by exact Ef. rewrite Ha. unfold inner. rewrite Ef. reflexivity.
      + rewrite (main_404 page a) by (rewrite Ef; discriminate). rewrite configure_snoc.
        cbn [register add_middleware r_routes r_static r_chain].
        fold (target (configure world (main_registrations page (without_404 a))) (rq_path rq) (rq_method rq)).
        rewrite target_without. fold t. unfold custom_404 at 1. rewrite main_chain by reflexivity. cbn [without_404 a_status_page]. rewrite Ha.
        unfold inner. rewrite Ef. reflexivity.
  Qed.
End Steps.

(** ** A history of requests *)
(** Durations as the program computes them. *)
Inductive timed (app : request -> world -> world * app_answer) (w0 : world)
  : list (request * option response) -> list Z -> world -> Prop :=
| timed_nothing : timed app w0 [] [] w0
| timed_more : forall l ds w rq w' r, timed app w0 l ds w -> app rq w = (w', Answers r) ->
    timed app w0 (l ++ [(rq, Some r)]) (ds ++ [Z.quot (w_clock w (pred (w_readings w')) - w_clock w (w_readings w)) 1000]) w'.
Lemma total_of_snoc l d : total_of (l ++ [d]) = total_of l + d.
Proof. unfold total_of. induction l as [|x l IH]; cbn [fold_right Datatypes.app]; [lia|rewrite IH; lia]. Qed.
Lemma lenZ_snoc {A} (l : list A) x : lenZ (l ++ [x]) = lenZ l + 1.
Proof. unfold lenZ. rewrite app_length. cbn [length]. lia. Qed.

Section History.
  Variable page : stats -> Z -> bytes.
  Variable a : args.
  Hypothesis Ha : a_status_page a = true.
  Variable w0 : world.
  Hypothesis Hw0 : w_stats w0 = no_stats.

  Record told (l : list (request * option response)) (ds : list Z) (w : world) : Prop := {
    td_clock : w_clock w = w_clock w0;
    td_readings : (w_readings w0 <= w_readings w)%nat;
    td_total : total_requests (w_stats w) = lenZ l;
    td_times : total_duration_us (w_stats w) = total_of ds;
    td_sorted : sorted (status_codes (w_stats w));
    td_positive : Forall (fun x : Z * Z => 0 <= fst x /\ 0 < snd x) (status_codes (w_stats w));
    td_codes : forall c, lookup c (status_codes (w_stats w)) = lenZ (filter (has_status c) l) }.

  Lemma increment_positive code m : 0 <= code -> Forall (fun x : Z * Z => 0 <= fst x /\ 0 < snd x) m -> lookup code m + 1 < 2 ^ 64 ->
    Forall (fun x : Z * Z => 0 <= fst x /\ 0 < snd x) (increment code m).
  Proof.
    intros Hc. induction 1 as [|[c n] m H Hm IH]; intros L; cbn [increment]; [repeat constructor; easy|].
    cbn [lookup] in L. destruct (code =? c).
    - constructor; [|exact Hm]. cbn [fst snd] in *. split; [lia|]. unfold u64. rewrite Z.mod_small; lia.
    - destruct (code <? c); constructor; cbn; try lia; auto.
  Qed.
  Lemma filter_bound {A} (f : A -> bool) l : 0 <= lenZ (filter f l) <= lenZ l.
  Proof. unfold lenZ. induction l as [|x l IH]; cbn [filter length]; [lia|]. destruct (f x); cbn [length]; lia. Qed.

  Lemma main_stats rq w w' r : main_app page a rq w = (w', Answers r) ->
    0 <= rs_status r < 1000 /\ w_clock w' = w_clock w /\ (S (S (w_readings w)) <= w_readings w')%nat /\
    w_stats w' = Stats (u64 (total_requests (w_stats w) + 1)) (increment (rs_status r) (status_codes (w_stats w)))
      (total_duration_us (w_stats w) + Z.quot (w_clock w (pred (w_readings w')) - w_clock w (w_readings w)) 1000).
  Proof.
    intros E. destruct (main_form page a Ha rq w) as (h & Hc & _ & F). rewrite F in E. cbn [stats_middleware snd] in E. cbn [read_clock] in E.
    match type of E with context [h rq ?x] => pose proof (Hc rq x) as K; destruct (h rq x) as [w1 [r1|]] end; [|discriminate E].
    cbn [fst] in K. destruct K as (K1 & K2 & K3 & K4). injection E as <- <-. cbn [w_stats w_clock w_readings set_stats] in *.
    rewrite K1, K2. cbn [total_requests status_codes total_duration_us pred]. split; [exact K4|]. split; [reflexivity|]. split; [lia|reflexivity].
  Qed.
  Lemma told_all l w : handled eq (main_app page a) w0 l w -> lenZ l < 2 ^ 64 ->
    exists ds, timed (main_app page a) w0 l ds w /\ told l ds w.
  Proof.
    intros H. induction H as [|l w w' H IH E|l w rq w' r H IH E|l w rq w' H IH E|l w rq w' H IH E]; intros Hl.
    - exists []. split; [constructor|]. constructor; try rewrite Hw0; try reflexivity; try constructor.
    - subst w'. auto.
    - rewrite lenZ_snoc in Hl. destruct IH as (ds & I1 & I2); [lia|]. destruct I2 as [J1 J2 J3 J4 J5 J6 J7].
      eexists. split; [econstructor; eassumption|]. destruct (main_stats rq w w' r E) as (K0 & K1 & K2 & K3).
      pose proof (filter_bound (has_status (rs_status r)) l) as B.
      destruct (increment_spec (rs_status r) _ J5) as (S1 & _ & S3).
      constructor; rewrite ?K3; cbn [total_requests status_codes total_duration_us].
      + congruence.
      + lia.
      + rewrite J3, lenZ_snoc. unfold u64. apply Z.mod_small. unfold lenZ in *. lia.
      + now rewrite total_of_snoc, J4.
      + exact S1.
      + apply increment_positive; [lia|exact J6|]. rewrite J7. lia.
      + intros c. rewrite S3, filter_app. cbn [filter has_status snd]. rewrite (Z.eqb_sym c).
        destruct (Z.eqb_spec (rs_status r) c) as [Ec|N]; [rewrite Ec in B; rewrite lenZ_snoc, J7; unfold u64; apply Z.mod_small; lia|].
        now rewrite app_nil_r.
    - destruct (main_answers page a rq w) as (w2 & r2 & E'). congruence.
    - destruct (main_answers page a rq w) as (w2 & r2 & E'). congruence.
  Qed.
  Lemma handled_prefix l1 x l2 w : handled eq (main_app page a) w0 (l1 ++ x :: l2) w ->
    exists w1 w2 r, handled eq (main_app page a) w0 l1 w1 /\ main_app page a (fst x) w1 = (w2, Answers r) /\ snd x = Some r.
  Proof.
    intros H. remember (l1 ++ x :: l2) as l eqn:El. revert l2 El.
    induction H as [|l w w' H IH E|l w rq w' r H IH E|l w rq w' H IH E|l w rq w' H IH E]; intros l2 El.
    - now destruct l1.
    - eauto.
    - destruct l2 as [|y l2 _] using rev_ind.
      + apply app_inj_tail in El as [-> <-]. exists w, w', r. auto.
      + rewrite app_comm_cons, app_assoc in El. apply app_inj_tail in El as [-> _]. eauto.
    - destruct (main_answers page a rq w) as (w2 & r2 & E'). congruence.
    - destruct (main_answers page a rq w) as (w2 & r2 & E'). congruence.
  Qed.
  Lemma took_all l ds w : timed (main_app page a) w0 l ds w -> w_clock w = w_clock w0 /\
    exists ds', took (main_app page a) w0 l ds' w /\ (steady w0 -> ds' = ds /\ 0 <= total_of ds).
  Proof.
    induction 1 as [|l ds w rq w' r H (I1 & ds' & I2 & I3) E]; [split; [reflexivity|exists []; split; [constructor|intros _; split; [reflexivity|cbn; lia]]]|].
    destruct (main_stats rq w w' r E) as (_ & K1 & K2 & _). split; [congruence|]. eexists. split; [econstructor; eassumption|].
    intros Hs. destruct (I3 Hs) as [-> I4]. pose proof (Hs (w_readings w) (pred (w_readings w')) ltac:(lia)) as Hd. rewrite <- I1 in Hd.
    rewrite Z.quot_div_nonneg by lia. split; [reflexivity|]. rewrite total_of_snoc. pose proof (Z.div_pos (w_clock w (pred (w_readings w')) - w_clock w (w_readings w)) 1000). lia.
  Qed.
  (** A look at the page. *)
  Lemma main_page rq w : rq_path rq = str "/_ion/status" -> rq_method rq = str "GET" -> exists w',
    main_app page a rq w = (w', Answers (Response 200 [Hdr (str "content-type") (str "text/html; charset=utf-8"); Hdr (str "cache-control") (str "no-store")]
      (page (Stats (u64 (total_requests (w_stats w) + 1)) (status_codes (w_stats w)) (total_duration_us (w_stats w))) (w_clock w (S (w_readings w)))))).
  Proof.
    intros Hp Hm. destruct (main_form page a Ha rq w) as (h & _ & Hh & F). specialize (Hh Hp Hm). rewrite F.
    cbn [stats_middleware snd read_clock]. rewrite Hh. cbn. eauto.
  Qed.
End History.

(** ** What the statistics can be *)
Lemma sized_codes m : sorted m -> forall k, Forall (fun x : Z * Z => k <= fst x < 1000) m -> k <= 1000 -> lenZ m <= 1000 - k.
Proof.
  induction 1 as [|[c n] m Hs IH Hf]; intros k Hk L; [unfold lenZ; cbn [length Z.of_nat]; lia|]. apply Forall_cons_iff in Hk as [H1 H2]. cbn [fst] in *. rewrite lenZ_cons.
  specialize (IH (c + 1)). assert (lenZ m <= 1000 - (c + 1)); [|lia]. apply IH; [|lia].
  rewrite Forall_forall in *. intros x Hx. specialize (Hf x Hx). specialize (H2 x Hx). cbn [fst] in Hf. lia.
Qed.
Section Sizes.
  Variable page : stats -> Z -> bytes.
  Variable a : args.
  Hypothesis Ha : a_status_page a = true.
  Variable w0 : world.
  Hypothesis Hw0 : w_stats w0 = no_stats.
  Hypothesis Hsteady : steady w0.

  Record sized (w : world) : Prop := {
    sz_clock : w_clock w = w_clock w0;
    sz_readings : (w_readings w0 <= w_readings w)%nat;
    sz_total : 0 <= total_requests (w_stats w) < 2 ^ 64;
    sz_sorted : sorted (status_codes (w_stats w));
    sz_codes : Forall (fun x : Z * Z => 0 <= fst x < 1000 /\ 0 <= snd x < 2 ^ 64) (status_codes (w_stats w));
    sz_times : 0 <= 1000 * total_duration_us (w_stats w) <= w_clock w0 (w_readings w) - w_clock w0 (w_readings w0) }.
  Lemma sized_start : sized w0.
  Proof. clear -Hw0. constructor; rewrite ?Hw0; cbn [no_stats total_requests status_codes total_duration_us]; try constructor; try reflexivity; try lia. Qed.
  Lemma sized_step rq w : sized w -> sized (fst (main_app page a rq w)).
  Proof.
    intros [J1 J2 J3 J4 J5 J6]. destruct (main_answers page a rq w) as (w' & r & E). rewrite E. cbn [fst].
    destruct (main_stats page a Ha rq w w' r E) as (K0 & K1 & K2 & K3).
    constructor; rewrite ?K3; cbn [total_requests status_codes total_duration_us].
    - congruence.
    - lia.
    - unfold u64. apply Z.mod_pos_bound. lia.
    - apply increment_spec, J4.
    - clear -J5 K0. induction J5 as [|[c n] m H Hm IH]; cbn [increment]; [repeat constructor; cbn; lia|].
      destruct (_ =? c); [|destruct (_ <? c)]; repeat (apply Forall_cons; [|try assumption]); cbn [fst snd] in *; try assumption; try lia.
      split; [apply H|]. unfold u64. apply Z.mod_pos_bound. lia.
    - rewrite J1. pose proof (Hsteady (w_readings w) (pred (w_readings w')) ltac:(lia)) as S1.
      pose proof (Hsteady (pred (w_readings w')) (w_readings w') ltac:(lia)) as S2. rewrite Z.quot_div_nonneg by lia.
      pose proof (Z.div_pos (w_clock w0 (pred (w_readings w')) - w_clock w0 (w_readings w)) 1000 ltac:(lia) ltac:(lia)).
      pose proof (Z.mul_div_le (w_clock w0 (pred (w_readings w')) - w_clock w0 (w_readings w)) 1000 ltac:(lia)). lia.
  Qed.
End Sizes.

(** ** Reading the page *)
(** [pat] and [s] differ at a position they both have. *)
Fixpoint clash (pat s : bytes) : bool :=
  match pat, s with
  | p :: pat', c :: s' => if p =? c then clash pat' s' else true
  | _, _ => false
  end.
Fixpoint misses (pat s : bytes) : bool :=
  match s with [] => true | _ :: s' => clash pat s && misses pat s' end.
Lemma clash_starts pat : forall s r, clash pat s = true -> starts pat (s ++ r) = None.
Proof.
  induction pat as [|p pat IH]; intros [|c s] r H; try discriminate H. cbn in *. destruct (p =? c); [auto|reflexivity].
Qed.
Lemma after_misses pat s r : misses pat s = true -> after pat (s ++ r) = after pat r.
Proof.
  induction s as [|c s IH]; intros H; [reflexivity|]. cbn [misses] in H. apply andb_true_iff in H as [H1 H2].
  rewrite <- IH by exact H2. apply (clash_starts pat _ r) in H1. cbn [Datatypes.app] in *. cbn [after]. now rewrite H1.
Qed.
Lemma plain_app s r : plain s -> plain r -> plain (s ++ r).
Proof. intros H1 H2. apply Forall_app. auto. Qed.
Lemma after_plain pat s r : plain s -> after (60 :: pat) (s ++ r) = after (60 :: pat) r.
Proof.
  induction 1 as [|c s H _ IH]; [reflexivity|]. rewrite <- IH. cbn [Datatypes.app after starts].
  destruct (Z.eqb_spec 60 c); [congruence|reflexivity].
Qed.
Lemma text_plain s r : plain s -> text (s ++ 60 :: r) = s.
Proof.
  induction 1 as [|c s H _ IH]; [reflexivity|]. cbn [Datatypes.app text]. rewrite IH. destruct (Z.eqb_spec c 60); [congruence|reflexivity].
Qed.
Lemma decimal_plain s n : decimal s n -> plain s.
Proof. intros [H _]. eapply Forall_impl; [|exact H]. cbn. lia. Qed.
Lemma number_plain n : 0 <= n -> plain (to_string n).
Proof. intros H. exact (decimal_plain _ n (proj1 (to_string_spec n H))). Qed.

Lemma duration_plain n : 0 <= n -> plain (format_duration n).
Proof.
  intros H. assert (K : forall s, forallb (fun c => negb (c =? 60)) s = true -> plain s).
  { intros s E. apply Forall_forall. intros c Hc. rewrite forallb_forall in E. specialize (E c Hc). destruct (Z.eqb_spec c 60); [discriminate E|assumption]. }
  destruct (format_shown n H); repeat (first [eapply decimal_plain; eassumption|apply plain_app|now apply K]).
Qed.
Lemma fixed2_plain r f : 0 <= r -> 0 < f -> plain (fixed2 (r, f)).
Proof.
  intros Hr Hf. destruct (fixed2_spec r f Hr Hf) as (h & (w & d1 & d2 & -> & D & -> & ->) & H & _). apply plain_app; [eapply decimal_plain; exact D|].
  repeat constructor; lia.
Qed.
Lemma latency_plain d n : plain (latency_text d n).
Proof.
  unfold latency_text. destruct (n >? 0) eqn:E; [|apply fixed2_plain; lia]. apply plain_app; [destruct (d <? 0); repeat constructor; discriminate|].
  pose proof (average_err (Z.abs d) n ltac:(lia) ltac:(lia)) as A. destruct (average (Z.abs d) n) as [r f]. now apply fixed2_plain.
Qed.

Definition footer_tag : bytes := str "<a href=""https://github.com/rhargreaves/ion"">ion</a> v".
Section Page.
  Variables version id : bytes.
  Variable start : Z.
  Variable st : stats.
  Variable now : Z.
  Hypothesis Htotal : 0 <= total_requests st.
  Let P := page_text version id start st now.

  Lemma uptime_range : 0 <= uptime_sec start now < 2 ^ 64.
  Proof. unfold uptime_sec, u64. apply Z.mod_pos_bound. lia. Qed.
  Lemma read_uptime : value_of (str "Uptime") P = Some (format_duration (uptime_sec start now)).
  Proof.
    unfold P, page_text, value_of.
    assert (E : forall r, after (str "<span class=""label"">" ++ str "Uptime" ++ str "</span><span class=""value"">") (TEXT_HEAD ++ r) = Some r)
      by (intros; vm_compute; reflexivity).
    rewrite E. cbn [option_map]. f_equal.
    assert (E2 : TEXT_REQUESTS = 60 :: tl TEXT_REQUESTS) by (vm_compute; reflexivity). rewrite E2. cbn [Datatypes.app]. apply text_plain, duration_plain. exact (proj1 uptime_range).
  Qed.
  Lemma read_requests : value_of (str "Requests") P = Some (to_string (total_requests st)).
  Proof.
    unfold P, page_text, value_of. set (pat := str "<span class=""label"">" ++ str "Requests" ++ str "</span><span class=""value"">").
    rewrite after_misses by (vm_compute; reflexivity). change pat with (60 :: tl pat). rewrite after_plain by exact (duration_plain _ (proj1 uptime_range)).
    change (60 :: tl pat) with pat.
    assert (E : forall r, after pat (TEXT_REQUESTS ++ r) = Some r) by (intros; vm_compute; reflexivity).
    rewrite E. cbn [option_map]. f_equal.
    assert (E2 : TEXT_LATENCY = 60 :: tl TEXT_LATENCY) by (vm_compute; reflexivity). rewrite E2. cbn [Datatypes.app]. now apply text_plain, number_plain.
  Qed.
  Lemma read_latency : value_of (str "Avg Latency") P = Some (latency_text (total_duration_us st) (total_requests st) ++ str "ms").
  Proof.
    unfold P, page_text, value_of. set (pat := str "<span class=""label"">" ++ str "Avg Latency" ++ str "</span><span class=""value"">").
    rewrite after_misses by (vm_compute; reflexivity). change pat with (60 :: tl pat). rewrite after_plain by exact (duration_plain _ (proj1 uptime_range)).
    rewrite after_misses by (vm_compute; reflexivity). rewrite after_plain by now apply number_plain.
    change (60 :: tl pat) with pat.
    assert (E : forall r, after pat (TEXT_LATENCY ++ r) = Some r) by (intros; vm_compute; reflexivity).
    rewrite E. cbn [option_map]. f_equal.
    assert (E2 : TEXT_CODES = str "ms" ++ 60 :: tl (tl (tl TEXT_CODES))) by (vm_compute; reflexivity). rewrite E2, <- (app_assoc (str "ms")), app_assoc. cbn [Datatypes.app]. apply text_plain, plain_app; [apply latency_plain|].
    repeat constructor; discriminate.
  Qed.

  Definition number_tag : bytes := str "<span class='code-num'>".
  Hypothesis Hversion : plain version.
  Hypothesis Hid : plain id.
  Hypothesis Hcodes : Forall (fun x : Z * Z => 0 <= fst x /\ 0 <= snd x) (status_codes st).
  Lemma read_tail : after number_tag (TEXT_VERSION ++ version ++ TEXT_ID ++ id ++ TEXT_TAIL) = None.
  Proof.
    rewrite after_misses by (vm_compute; reflexivity). change number_tag with (60 :: tl number_tag). rewrite after_plain by exact Hversion.
    rewrite after_misses by (vm_compute; reflexivity). rewrite after_plain by exact Hid. vm_compute. reflexivity.
  Qed.
  Lemma read_badges m tail : Forall (fun x : Z * Z => 0 <= fst x /\ 0 <= snd x) m -> after number_tag tail = None ->
    forall n, (length m <= n)%nat -> code_list n (flat_map badge m ++ tail) = map (fun x => (to_string (fst x), to_string (snd x))) m.
  Proof.
    intros H Ht. induction H as [|[c k] m [Hc Hk] _ IH]; intros n L.
    - cbn [flat_map Datatypes.app map]. destruct n as [|n]; [reflexivity|]. cbn [code_list]. fold number_tag. now rewrite Ht.
    - destruct n as [|n]; [cbn in L; lia|]. cbn [length] in L. cbn [flat_map map fst snd] in *. unfold badge at 1. cbn [fst snd].
      rewrite <- !app_assoc. cbn [code_list]. fold number_tag. set (r := flat_map badge m ++ tail) in *.
      assert (E : forall r, after number_tag (str "<div class='code-badge'><span class='code-num'>" ++ r) = Some r) by (intros; vm_compute; reflexivity).
      rewrite E. change (str "</span>") with (60 :: tl (str "</span>")). rewrite after_plain by now apply number_plain.
      assert (E2 : forall r, after (60 :: tl (str "</span>")) ((60 :: tl (str "</span>")) ++ r) = Some r) by (intros; reflexivity).
      rewrite E2. f_equal.
      + f_equal; [cbn [Datatypes.app]; now apply text_plain, number_plain|].
        change (str "</div>") with (60 :: tl (str "</div>")). cbn [Datatypes.app]. now apply text_plain, number_plain.
      + assert (E3 : code_list n (to_string k ++ str "</div>" ++ r) = code_list n r).
        { destruct n as [|n']; [reflexivity|]. cbn [code_list]. fold number_tag. change number_tag with (60 :: tl number_tag).
          rewrite after_plain by now apply number_plain. now rewrite after_misses by (vm_compute; reflexivity). }
        rewrite E3. apply IH. lia.
  Qed.
  Lemma code_list_skip n s t : after number_tag (s ++ t) = after number_tag t -> code_list n (s ++ t) = code_list n t.
  Proof. intros E. destruct n as [|n]; [reflexivity|]. cbn [code_list]. fold number_tag. now rewrite E. Qed.
  Lemma badge_length x : (1 <= length (badge x))%nat.
  Proof. unfold badge. rewrite app_length. cbn. lia. Qed.
  Lemma badges_length m : (length m <= length (flat_map badge m))%nat.
  Proof. induction m as [|x m IH]; [cbn; lia|]. cbn [flat_map length]. rewrite app_length. pose proof (badge_length x). lia. Qed.
  Lemma read_codes : codes_of P = map (fun x => (to_string (fst x), to_string (snd x))) (status_codes st).
  Proof.
    assert (L : (length (status_codes st) <= length P)%nat).
    { assert (B : (length (status_codes st) <= length (badges (status_codes st)))%nat).
      { unfold badges. destruct (status_codes st) as [|x m]; [apply Nat.le_0_l|apply badges_length]. }
      unfold P, page_text. rewrite !app_length.
      generalize (length TEXT_HEAD), (length TEXT_REQUESTS), (length TEXT_LATENCY), (length TEXT_CODES). intros. lia. }
    unfold codes_of. set (n := length P) in *. clearbody n. unfold P, page_text.
    rewrite code_list_skip by (apply after_misses; vm_compute; reflexivity).
    rewrite code_list_skip by (apply (after_plain (tl number_tag)), duration_plain, (proj1 uptime_range)).
    rewrite code_list_skip by (apply after_misses; vm_compute; reflexivity).
    rewrite code_list_skip by now apply (after_plain (tl number_tag)), number_plain.
    rewrite code_list_skip by (apply after_misses; vm_compute; reflexivity).
    rewrite code_list_skip by apply (after_plain (tl number_tag)), latency_plain.
    rewrite code_list_skip by (apply after_misses; vm_compute; reflexivity).
    unfold badges. destruct (status_codes st) as [|x m] eqn:E.
    - rewrite code_list_skip by (apply after_misses; vm_compute; reflexivity). apply (read_badges []); [constructor|exact read_tail|exact L].
    - rewrite <- E in *. apply read_badges; [exact Hcodes|exact read_tail|exact L].
  Qed.

  Lemma read_footer : exists space, Forall (fun c => c = 32 \/ c = 10) space /\
    foot P = Some (version ++ [32; 226; 128; 162] ++ str " instance id: " ++ id ++ space).
  Proof.
    assert (Ht : TEXT_TAIL = [10; 32; 32; 32; 32] ++ 60 :: skipn 6 TEXT_TAIL) by (vm_compute; reflexivity).
    exists [10; 32; 32; 32; 32]. split; [apply Forall_forall; intros c Hc; cbn in Hc; intuition lia|]. unfold foot. fold footer_tag. unfold P, page_text.
    assert (Hb : after footer_tag (badges (status_codes st) ++ TEXT_VERSION ++ version ++ TEXT_ID ++ id ++ TEXT_TAIL) =
                 after footer_tag (TEXT_VERSION ++ version ++ TEXT_ID ++ id ++ TEXT_TAIL)).
    { generalize (TEXT_VERSION ++ version ++ TEXT_ID ++ id ++ TEXT_TAIL). intros r. unfold badges.
      assert (G : forall m, Forall (fun x : Z * Z => 0 <= fst x /\ 0 <= snd x) m -> after footer_tag (flat_map badge m ++ r) = after footer_tag r);
        [|destruct (status_codes st) as [|x m]; [now rewrite after_misses by (vm_compute; reflexivity)|now apply G]].
      intros m Hm. induction Hm as [|[c k] m [H1 H2] _ IH]; [reflexivity|].
      cbn [flat_map]. unfold badge at 1. cbn [fst snd] in *. rewrite <- !app_assoc.
      rewrite after_misses by (vm_compute; reflexivity). change footer_tag with (60 :: tl footer_tag). rewrite after_plain by now apply number_plain.
      rewrite after_misses by (vm_compute; reflexivity). rewrite after_plain by now apply number_plain.
      rewrite after_misses by (vm_compute; reflexivity). exact IH. }
    change footer_tag with (60 :: tl footer_tag) in *.
    rewrite after_misses by (vm_compute; reflexivity). rewrite after_plain by exact (duration_plain _ (proj1 uptime_range)).
    rewrite after_misses by (vm_compute; reflexivity). rewrite after_plain by now apply number_plain.
    rewrite after_misses by (vm_compute; reflexivity). rewrite after_plain by apply latency_plain.
    rewrite after_misses by (vm_compute; reflexivity). rewrite Hb.
    assert (E : forall r, after (60 :: tl footer_tag) (TEXT_VERSION ++ r) = Some r) by (intros; vm_compute; reflexivity).
    rewrite E. cbn [option_map]. f_equal. rewrite Ht. change TEXT_ID with ([32; 226; 128; 162] ++ str " instance id: ").
    rewrite <- !app_assoc. rewrite (app_assoc id), (app_assoc (str " instance id: ")), (app_assoc [32; 226; 128; 162]), (app_assoc version).
    rewrite text_plain; [reflexivity|]. apply plain_app; [exact Hversion|]. apply plain_app; [repeat constructor; discriminate|].
    apply plain_app; [apply Forall_forall; intros c Hc; cbn in Hc; intuition lia|]. apply plain_app; [exact Hid|repeat constructor; discriminate].
  Qed.
End Page.

(** ** A look at the page *)
Lemma sorted_lookup m : sorted m -> forall c n, In (c, n) m -> lookup c m = n.
Proof.
  induction 1 as [|[c' n'] m _ IH Hf]; intros c n; [easy|]. cbn [lookup]. intros [[= -> ->]|H]; [now rewrite Z.eqb_refl|].
  rewrite Forall_forall in Hf. specialize (Hf _ H). cbn [fst] in Hf. destruct (Z.eqb_spec c c'); [lia|auto].
Qed.
Lemma lookup_in c m : 0 < lookup c m -> In (c, lookup c m) m.
Proof.
  induction m as [|[c' n'] m IH]; cbn [lookup]; [easy|]. destruct (Z.eqb_spec c c') as [->|N]; [now left|right; auto].
Qed.
Lemma numbers_read m : Forall (fun x : Z * Z => 0 <= fst x /\ 0 < snd x) m ->
  Forall2 (fun x y => decimal (fst x) (fst y) /\ decimal (snd x) (snd y)) (map (fun x => (to_string (fst x), to_string (snd x))) m) m.
Proof. induction 1 as [|x m [H1 H2] _ IH]; constructor; [|exact IH]. split; apply to_string_spec; cbn; lia. Qed.

Section Look.
  Variables version id : bytes.
  Variable start : Z.
  Variable a : args.
  Hypothesis Ha : a_status_page a = true.
  Variable w0 : world.
  Hypothesis Hw0 : w_stats w0 = no_stats.
  Hypothesis Hversion : plain version.
  Hypothesis Hid : plain id.
  Let app := main_app (page_text version id start) a.
  Variables (l1 : list (request * option response)) (rq : request) (an : option response) (l2 : list (request * option response)) (w : world).
  Hypothesis H : handled eq app w0 (l1 ++ (rq, an) :: l2) w.
  Hypothesis Hp : rq_path rq = str "/_ion/status".
  Hypothesis Hm : rq_method rq = str "GET".
  Hypothesis Hl : lenZ l1 + 1 < 2 ^ 64.

  Lemma look : exists r ds w1 m, an = Some r /\ rs_status r = 200 /\ took app w0 l1 ds w1 /\
    (exists t, value_of (str "Requests") (rs_body r) = Some t /\ decimal t (lenZ l1 + 1)) /\
    (Forall2 (fun x y => decimal (fst x) (fst y) /\ decimal (snd x) (snd y)) (codes_of (rs_body r)) m /\ tally l1 m) /\
    (exists t, value_of (str "Uptime") (rs_body r) = Some t /\
      (0 <= w_clock w0 (S (w_readings w1)) - start < 2 ^ 63 -> shown ((w_clock w0 (S (w_readings w1)) - start) / 1000000000) t)) /\
    (exists space, Forall (fun c => c = 32 \/ c = 10) space /\
      foot (rs_body r) = Some (version ++ [32; 226; 128; 162] ++ str " instance id: " ++ id ++ space)) /\
    (steady w0 -> exists t h, value_of (str "Avg Latency") (rs_body r) = Some (t ++ str "ms") /\ hundredths t h /\
      2 ^ 50 * Z.abs (10 * (lenZ l1 + 1) * h - total_of ds) <= 2 ^ 50 * (5 * (lenZ l1 + 1)) + total_of ds).
  Proof.
    destruct (handled_prefix _ _ _ _ _ _ _ H) as (w1 & w2 & r & H1 & H2 & H3). cbn [fst snd] in *.
    destruct (told_all _ a Ha w0 Hw0 l1 w1 H1 ltac:(lia)) as (ds & Ht & [J1 J2 J3 J4 J5 J6 J7]).
    destruct (main_page (page_text version id start) a Ha rq w1 Hp Hm) as [w2' E]. rewrite E in H2. injection H2 as _ <-.
    assert (L0 : 0 <= lenZ l1) by (unfold lenZ; lia).
    replace (u64 (total_requests (w_stats w1) + 1)) with (lenZ l1 + 1) in * by (rewrite J3; symmetry; apply Z.mod_small; lia).
    set (st := Stats (lenZ l1 + 1) (status_codes (w_stats w1)) (total_duration_us (w_stats w1))) in *.
    destruct (took_all _ a Ha w0 l1 ds w1 Ht) as (_ & ds' & K1 & K2).
    eexists _, ds', w1, (status_codes (w_stats w1)). split; [exact H3|]. split; [reflexivity|]. split; [exact K1|]. cbn [rs_body].
    split; [|split; [split; [|split]|split; [|split]]].
    - exists (to_string (lenZ l1 + 1)). split; [apply read_requests; cbn; lia|apply to_string_spec; lia].
    - rewrite read_codes; auto; cbn [st total_requests status_codes]; [now apply numbers_read|lia|].
      eapply Forall_impl; [|exact J6]. cbn. lia.
    - exact J5.
    - intros c n. split.
      + intros Hin. split; [rewrite Forall_forall in J6; apply (J6 _ Hin)|]. rewrite <- J7. symmetry. exact (sorted_lookup _ J5 c n Hin).
      + intros [Hn En]. rewrite En, <- J7. apply lookup_in. rewrite J7. lia.
    - eexists. split; [apply read_uptime|]. rewrite J1. set (d := w_clock w0 _ - start). intros Hd.
      assert (Eu : uptime_sec start (w_clock w0 (S (w_readings w1))) = d / 1000000000).
      { unfold uptime_sec. fold d. rewrite Z.quot_div_nonneg by lia. apply Z.mod_small. split; [apply Z.div_pos; lia|].
        apply Z.div_lt_upper_bound; lia. }
      rewrite Eu. apply format_shown. apply Z.div_pos; lia.
    - apply read_footer; auto; cbn [st total_requests status_codes]; [lia|]. eapply Forall_impl; [|exact J6]. cbn. lia.
    - intros Hs. destruct (K2 Hs) as [-> Hd]. destruct (latency_spec (total_of ds) (lenZ l1 + 1) Hd ltac:(lia)) as (h & L1 & _ & L3).
      exists (latency_text (total_of ds) (lenZ l1 + 1)), h. split; [|split; [exact L1|exact L3]].
      rewrite read_latency by (cbn; lia). cbn [st total_requests total_duration_us]. now rewrite J4.
  Qed.
End Look.

(** ** Size *)
Lemma decimal_size s n : decimal s n -> 0 <= n < 10 ^ 20 -> lenZ s <= 20.
Proof. intros H Hn. apply (decimal_digits s n H). lia. Qed.
Lemma number_size n : 0 <= n < 2 ^ 64 -> lenZ (to_string n) <= 64.
Proof. intros H. apply (to_string_spec n ltac:(lia)). lia. Qed.
Lemma duration_size n : 0 <= n < 2 ^ 64 -> lenZ (format_duration n) <= 90.
Proof.
  intros H. destruct (format_shown n (proj1 H)) as [d h m s D H' M S E ? ? ? ? ? ? ? ?|h m s H' M S E ? ? ? ? ? ?|m s M S E ? ? ? ?|S ? ?]; rewrite !lenZ_app;
    repeat match goal with K : decimal ?s ?n |- _ => apply decimal_size in K; [|lia] end;
    change (lenZ (str "d ")) with 2; change (lenZ (str "h ")) with 2; change (lenZ (str "m ")) with 2; change (lenZ (str "s")) with 1; lia.
Qed.
Lemma latency_size d n : 0 <= d < 2 ^ 64 -> 0 < n < 2 ^ 64 -> lenZ (latency_text d n) <= 23.
Proof.
  intros Hd Hn. destruct (latency_spec d n ltac:(lia) ltac:(lia)) as (h & (w & d1 & d2 & -> & D & _ & _) & H & E).
  assert (Hh : h < 2 ^ 65).
  { change (2 ^ 50) with 1125899906842624 in E. change (2 ^ 64) with 18446744073709551616 in *. change (2 ^ 65) with 36893488147419103232.
    assert (10 * n * h <= 5 * n + 2 * d + 2 * d) by lia. nia. }
  rewrite lenZ_app. change (lenZ [46; d1; d2]) with 3. apply decimal_size in D; [lia|]. split; [apply Z.div_pos; lia|].
  apply Z.div_lt_upper_bound; lia.
Qed.
Lemma badge_size c n : 0 <= c < 2 ^ 64 -> 0 <= n < 2 ^ 64 -> lenZ (badge (c, n)) <= 200.
Proof.
  intros Hc Hn. unfold badge. cbn [fst snd]. rewrite !lenZ_app. apply number_size in Hc, Hn.
  change (lenZ (str "<div class='code-badge'><span class='code-num'>")) with 47. change (lenZ (str "</span>")) with 7. change (lenZ (str "</div>")) with 6. lia.
Qed.
Lemma badges_size m : Forall (fun x : Z * Z => 0 <= fst x < 1000 /\ 0 <= snd x < 2 ^ 64) m -> lenZ (flat_map badge m) <= 200 * lenZ m.
Proof.
  induction 1 as [|[c n] m [H1 H2] _ IH]; [reflexivity|]. cbn [flat_map fst snd] in *. rewrite lenZ_app, lenZ_cons.
  pose proof (badge_size c n ltac:(lia) H2). lia.
Qed.
Lemma page_size version id start w0 w now : sized w0 w -> (forall n, 0 <= w_clock w0 n < 2 ^ 63) -> lenZ version < 2 ^ 32 -> lenZ id < 2 ^ 32 ->
  lenZ (page_text version id start (Stats (u64 (total_requests (w_stats w) + 1)) (status_codes (w_stats w)) (total_duration_us (w_stats w))) now) < 2 ^ 64.
Proof.
  intros [J1 J2 J3 J4 J5 J6] Hc Hv Hi. unfold page_text. cbn [total_requests status_codes total_duration_us]. rewrite !lenZ_app.
  set (n := u64 (total_requests (w_stats w) + 1)). assert (Hn : 0 <= n < 2 ^ 64) by (apply Z.mod_pos_bound; lia).
  pose proof (duration_size _ (uptime_range start now)) as L1. pose proof (number_size n Hn) as L2.
  assert (L3 : lenZ (latency_text (total_duration_us (w_stats w)) n) <= 23).
  { destruct (Z.eq_dec n 0) as [->|N]; [vm_compute; discriminate|]. apply latency_size; [|lia].
    pose proof (Hc (w_readings w)). pose proof (Hc (w_readings w0)). lia. }
  assert (L4 : lenZ (badges (status_codes (w_stats w))) <= 200000).
  { unfold badges. destruct (status_codes (w_stats w)) as [|x m] eqn:E; [vm_compute; discriminate|]. rewrite <- E in *.
    pose proof (badges_size _ J5). pose proof (sized_codes _ J4 0) as K. assert (lenZ (status_codes (w_stats w)) <= 1000 - 0); [apply K; [|lia]|lia].
    eapply Forall_impl; [|exact J5]. cbn. lia. }
  assert (L5 : lenZ TEXT_HEAD <= 10000) by (vm_compute; discriminate). assert (L6 : lenZ TEXT_REQUESTS <= 1000) by (vm_compute; discriminate).
  assert (L7 : lenZ TEXT_LATENCY <= 1000) by (vm_compute; discriminate). assert (L8 : lenZ TEXT_CODES <= 1000) by (vm_compute; discriminate).
  assert (L9 : lenZ TEXT_VERSION <= 1000) by (vm_compute; discriminate). assert (L10 : lenZ TEXT_ID <= 1000) by (vm_compute; discriminate).
  assert (L11 : lenZ TEXT_TAIL <= 1000) by (vm_compute; discriminate).
  generalize dependent (lenZ TEXT_HEAD). generalize dependent (lenZ TEXT_REQUESTS). generalize dependent (lenZ TEXT_LATENCY). generalize dependent (lenZ TEXT_CODES).
  generalize dependent (lenZ TEXT_VERSION). generalize dependent (lenZ TEXT_ID). generalize dependent (lenZ TEXT_TAIL). intros. lia.
Qed.

(** ** Another page *)
Lemma target_other page page' a p m : ~ (p = str "/_ion/status" /\ m = str "GET") ->
  target (configure world (main_registrations page a)) p m = target (configure world (main_registrations page' a)) p m.
Proof.
  intros H. unfold target.
  assert (E : routes_of world (main_registrations page a) = routes_of world (if a_under_test a then test_routes else []) ++ routes_of world (if a_status_page a then status_page page else []) /\
              statics_of world (main_registrations page a) = match a_static_map a with [url; root] => [Static url root] | _ => [] end).
  { unfold main_registrations, routes_of, statics_of. rewrite !flat_map_app. destruct (a_under_test a), (a_status_page a), (a_static_map a) as [|u [|r [|]]], (a_status_404_file_path a); split; reflexivity. }
  assert (E' : routes_of world (main_registrations page' a) = routes_of world (if a_under_test a then test_routes else []) ++ routes_of world (if a_status_page a then status_page page' else []) /\
              statics_of world (main_registrations page' a) = match a_static_map a with [url; root] => [Static url root] | _ => [] end).
  { unfold main_registrations, routes_of, statics_of. rewrite !flat_map_app. destruct (a_under_test a), (a_status_page a), (a_static_map a) as [|u [|r [|]]], (a_status_404_file_path a); split; reflexivity. }
  destruct (configure_parts world (main_registrations page a)) as [-> ->]. destruct (configure_parts world (main_registrations page' a)) as [-> ->].
  destruct E as [-> ->], E' as [-> ->].
  assert (F : forall rs, find_route world (rs ++ routes_of world (if a_status_page a then status_page page else [])) p m =
    find_route world (rs ++ routes_of world (if a_status_page a then status_page page' else [])) p m).
  { induction rs as [|r rs IH]; [|cbn [Datatypes.app find_route]; now rewrite IH]. destruct (a_status_page a); [|reflexivity].
    cbn [routes_of status_page flat_map Datatypes.app find_route rt_path rt_method].
    destruct (bytes_eqb (str "/_ion/status") p && bytes_eqb (str "GET") m) eqn:E; [|reflexivity].
    apply andb_true_iff in E as [E1 E2]. apply bytes_eqb_eq in E1, E2. exfalso. apply H. auto. }
  now rewrite F.
Qed.
Lemma chain_other page page' a h w : r_chain world (configure world (main_registrations page a)) h w = r_chain world (configure world (main_registrations page' a)) h w.
Proof.
  destruct (a_status_404_file_path a) as [|c f] eqn:Ef; [now rewrite (main_chain page), (main_chain page') by exact Ef|].
  rewrite (main_404 page a), (main_404 page' a) by (rewrite Ef; discriminate). rewrite !configure_snoc. cbn [register add_middleware r_chain].
  destruct (custom_404 _ h w) as [w1 [h1|]]; [|reflexivity]. now rewrite (main_chain page), (main_chain page') by reflexivity.
Qed.
Lemma main_other page page' a rq w : a_status_page a = true ->
  (rq_path rq = str "/_ion/status" /\ rq_method rq = str "GET" ->
   forall now, page' (Stats (u64 (total_requests (w_stats w) + 1)) (status_codes (w_stats w)) (total_duration_us (w_stats w))) now =
   page (Stats (u64 (total_requests (w_stats w) + 1)) (status_codes (w_stats w)) (total_duration_us (w_stats w))) now) ->
  main_app page' a rq w = main_app page a rq w.
Proof.
  intros Ha H. destruct (list_eq_dec Z.eq_dec (rq_path rq) (str "/_ion/status")) as [Hp|Hp].
  1: destruct (list_eq_dec Z.eq_dec (rq_method rq) (str "GET")) as [Hm|Hm].
  - destruct (main_form page a Ha rq w) as (h & _ & Hh & ->). destruct (main_form page' a Ha rq w) as (h' & _ & Hh' & ->).
    specialize (Hh Hp Hm). specialize (Hh' Hp Hm). cbn [stats_middleware snd read_clock]. rewrite Hh, Hh'. cbn. now rewrite (H (conj Hp Hm)).
  - unfold main_app, dispatch, get_handler. fold (target (configure world (main_registrations page a)) (rq_path rq) (rq_method rq)).
    fold (target (configure world (main_registrations page' a)) (rq_path rq) (rq_method rq)).
    rewrite (target_other page' page) by (intros [_ K]; contradiction). now rewrite (chain_other page' page).
  - unfold main_app, dispatch, get_handler. fold (target (configure world (main_registrations page a)) (rq_path rq) (rq_method rq)).
    fold (target (configure world (main_registrations page' a)) (rq_path rq) (rq_method rq)).
    rewrite (target_other page' page) by (intros [K _]; contradiction). now rewrite (chain_other page' page).
Qed.
Definition short_of (page : stats -> Z -> bytes) (st : stats) (now : Z) : bytes :=
  if lenZ (page st now) <? 2 ^ 64 then page st now else [].
Lemma short_fits page o : (forall l r io b, os_fs o l = Some (EFile r io b) -> lenZ b < 2 ^ 64) -> files_fit (short_of page) o.
Proof.
  intros H. split; [|exact H]. intros st now. unfold short_of. destruct (Z.ltb_spec (lenZ (page st now)) (2 ^ 64)) as [L|L]; [exact L|reflexivity].
Qed.
