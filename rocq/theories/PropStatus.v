(** C86-C87: what the status page says. *)
From Coq Require Import Sorted.
From Verif Require Import Base BaseLemmas SpecFrames FramesProofs SpecTable SpecHpack SpecHpackEnc SpecInt IntProofs HpackLemmas DynTable HpackEnc HpackEncProofs Huffman HuffmanProofs Http Conn SpecConn ConnLemmas ConnBasic ConnTerm ConnSpec
  ConnMain ConnMore ConnWit FileSys Files SpecFiles FilesProofs FilesServe PropFiles Router App SpecApp AppProofs PropApp
  Poller Server SpecServer ServerProofs ServerReach ServerHistory PropServer PropServer2 ProgramExt SpecProgram ProgramProofs PropProgram
  StatusText StatusPage SpecStatus StatusProofs.

(** ** C86.  Whoever asks for the status page, on whichever connection and whenever, is shown
    the number of requests so far, this one included; how many of the requests before it
    were answered with each status code; the time since the start; version and instance. *)
Theorem C86_page : forall linux listener version id start a cs T k0 w0 ok A pending s,
  setting listener k0 -> reached linux listener world (main_app (page_text version id start) a) cs T k0 w0 ok A pending s ->
  a_status_page a = true -> w_stats w0 = no_stats -> plain version -> plain id ->
  exists h, chronicle world (main_app (page_text version id start) a) w0 s h /\
    forall l1 rq an l2, requests (map snd h) = l1 ++ (rq, an) :: l2 -> asks_status rq -> lenZ l1 + 1 < 2 ^ 64 ->
    exists r total m uptime ds w, an = Some r /\ rs_status r = 200 /\
      value_of (str "Requests") (rs_body r) = Some total /\ decimal total (lenZ l1 + 1) /\
      tally l1 m /\ Forall2 (fun x y => decimal (fst x) (fst y) /\ decimal (snd x) (snd y)) (codes_of (rs_body r)) m /\
      value_of (str "Uptime") (rs_body r) = Some uptime /\ took (main_app (page_text version id start) a) w0 l1 ds w /\
      (0 <= w_clock w0 (S (w_readings w)) - start < 2 ^ 63 -> shown ((w_clock w0 (S (w_readings w)) - start) / 1000000000) uptime) /\
      exists space, Forall (fun c => c = 32 \/ c = 10) space /\
        foot (rs_body r) = Some (version ++ [32; 226; 128; 162] ++ str " instance id: " ++ id ++ space).
Proof.
  intros linux listener version id start a cs T k0 w0 ok A pending s Hs H Ha Hw Hv Hi.
  destruct (C78_one_sequence _ _ _ _ _ _ _ _ _ _ _ _ Hs H) as [h Hh]. exists h. split; [exact Hh|]. intros l1 rq an l2 E [Hp Hm] Hl.
  destruct Hh as [_ _ Hh]. rewrite E in Hh.
  destruct (look version id start a Ha w0 Hw Hv Hi l1 rq an l2 _ Hh Hp Hm Hl)
    as (r & ds & w1 & m & K1 & K2 & K3 & (t & K4 & K5) & (K6 & K7) & (u & K8 & K9) & K10 & _).
  exists r, t, m, u, ds, w1. repeat (split; [assumption|]). assumption.
Qed.
Print Assumptions C86_page.

(** A client asks for a file, for something that is not there, and for the status page. *)
Definition slow_world : world := World an_os no_stats (fun n => 10000000 * Z.of_nat n) 0 true.
Definition the_page : stats -> Z -> bytes := page_text (str "0.1.0") (str "00c0ffee") (- 93784000000000).
Definition three_visits : list iteration :=
  [at_time 0 [arrives 4]; at_time 0 [sends 4 (w_hello ++ get 1 (str "/static/a.txt"))];
   at_time 0 [sends 4 (get 3 (str "/nothing"))]; at_time 0 [sends 4 (get 5 (str "/_ion/status"))]].
Definition last_body (l : list (request * option response)) : bytes :=
  match last l (Request [] [] [], None) with (_, Some r) => rs_body r | _ => [] end.
Example C86_case : forall linux T, exists s,
  reached linux 3 world (main_app the_page some_args) true T k_std slow_world true enough_resources [] s /\
  match mget 4 (sv_conns world s) with
  | Some e =>
    map (fun x => (rq_path (fst x), option_map rs_status (snd x))) (requests (e_trace e)) =
      [(str "/static/a.txt", Some 200); (str "/nothing", Some 404); (str "/_ion/status", Some 200)] /\
    value_of (str "Requests") (last_body (requests (e_trace e))) = Some (str "3") /\
    value_of (str "Uptime") (last_body (requests (e_trace e))) = Some (str "1d 2h 3m 4s") /\
    value_of (str "Avg Latency") (last_body (requests (e_trace e))) = Some (str "6.67ms") /\
    codes_of (last_body (requests (e_trace e))) = [(str "200", str "1"); (str "404", str "1")]
  | None => False
  end.
Proof. intros [] T; run three_visits. Qed.

(** ** C87.  The average latency shown should be the mean duration of the requests that were
    answered before.  It is the sum of their durations, divided by the number of requests with the
    one for the page itself included: missing is that the divisor is the number of durations.
    Otherwise the number is right to half a hundredth of a millisecond (ten microseconds), up
    to the precision of double (relative error at most 2^-50). *)
Theorem C87_latency_partial : forall linux listener version id start a cs T k0 w0 ok A pending s,
  setting listener k0 -> reached linux listener world (main_app (page_text version id start) a) cs T k0 w0 ok A pending s ->
  a_status_page a = true -> w_stats w0 = no_stats -> plain version -> plain id -> steady w0 ->
  exists h, chronicle world (main_app (page_text version id start) a) w0 s h /\
    forall l1 rq an l2, requests (map snd h) = l1 ++ (rq, an) :: l2 -> asks_status rq -> lenZ l1 + 1 < 2 ^ 64 ->
    exists r ds w t n, an = Some r /\ took (main_app (page_text version id start) a) w0 l1 ds w /\
      value_of (str "Avg Latency") (rs_body r) = Some (t ++ str "ms") /\ hundredths t n /\
      2 ^ 50 * Z.abs (10 * (lenZ ds + 1) * n - total_of ds) <= 2 ^ 50 * (5 * (lenZ ds + 1)) + total_of ds.
Proof.
  intros linux listener version id start a cs T k0 w0 ok A pending s Hs H Ha Hw Hv Hi Hc.
  destruct (C78_one_sequence _ _ _ _ _ _ _ _ _ _ _ _ Hs H) as [h Hh]. exists h. split; [exact Hh|]. intros l1 rq an l2 E [Hp Hm] Hl.
  destruct Hh as [_ _ Hh]. rewrite E in Hh.
  destruct (look version id start a Ha w0 Hw Hv Hi l1 rq an l2 _ Hh Hp Hm Hl)
    as (r & ds & w1 & m & K1 & K2 & K3 & _ & _ & _ & _ & K). destruct (K Hc) as (t & n & L1 & L2 & L3).
  exists r, ds, w1, t, n. split; [exact K1|]. split; [exact K3|]. split; [exact L1|]. split; [exact L2|].
  assert (El : lenZ ds = lenZ l1) by (clear -K3; induction K3; [reflexivity|unfold lenZ in *; rewrite !app_length; cbn [length]; lia]).
  now rewrite El.
Qed.
Print Assumptions C87_latency_partial.
Lemma slow_steady : steady slow_world.
Proof. intros m n H. cbn [slow_world w_clock]. lia. Qed.
(** [C86_case] meets the hypotheses: two requests of 10 ms each; 20000 / 3 microseconds. *)
Example C87_case : steady slow_world /\ plain (str "0.1.0") /\ plain (str "00c0ffee") /\ hundredths (str "6.67") 667 /\
  2 ^ 50 * Z.abs (10 * (2 + 1) * 667 - 20000) <= 2 ^ 50 * (5 * (2 + 1)) + 20000.
Proof.
  split; [exact slow_steady|]. split; [repeat constructor; discriminate|]. split; [repeat constructor; discriminate|]. split; [|vm_compute; discriminate].
  exists (str "6"), 54, 55. split; [reflexivity|]. split; [exact (proj1 (to_string_spec 6 ltac:(lia)))|]. split; reflexivity.
Qed.

(** One request of 10 ms; the page says 5. *)
Definition two_visits : list iteration :=
  [at_time 0 [arrives 4]; at_time 0 [sends 4 (w_hello ++ get 1 (str "/static/a.txt"))]; at_time 0 [sends 4 (get 3 (str "/_ion/status"))]].
Definition plain_get (p : bytes) : request := Request (str "GET") p [Hdr (str ":method") (str "GET"); Hdr (str ":path") p].
Theorem C87_mean_refuted : forall linux T, exists s e r r' w,
  reached linux 3 world (main_app the_page some_args) true T k_std slow_world true enough_resources [] s /\ conn_at world s 4 e /\
  requests (e_trace e) = [(plain_get (str "/static/a.txt"), Some r); (plain_get (str "/_ion/status"), Some r')] /\
  took (main_app the_page some_args) slow_world [(plain_get (str "/static/a.txt"), Some r)] [10000] w /\
  value_of (str "Avg Latency") (rs_body r') = Some (str "5.00ms").
Proof.
  intros linux T.
  destruct (by_reached (linux := linux) (app := main_app the_page some_args) (cs := true) (T := T) (w0 := slow_world) two_visits
    (fun s => match mget 4 (sv_conns world s) with
      | Some e => exists r', requests (e_trace e) = [(plain_get (str "/static/a.txt"), Some (Response 200 [Hdr (str "content-type") (str "text/plain; charset=utf-8")] (str "text")));
          (plain_get (str "/_ion/status"), Some r')] /\ value_of (str "Avg Latency") (rs_body r') = Some (str "5.00ms")
      | None => False end)) as (s & H & K).
  - destruct linux; vm_compute; eexists; split; reflexivity.
  - apply iterations_ok. vm_compute. reflexivity.
  - destruct (mget 4 (sv_conns world s)) as [e|] eqn:E; [|destruct K]. destruct K as (r' & K1 & K2).
    eexists s, e, _, r', _. split; [exact H|]. split; [exact E|]. split; [exact K1|]. split; [|exact K2].
    apply (took_more _ _ [] [] slow_world) with (w' := fst (main_app the_page some_args (plain_get (str "/static/a.txt")) slow_world)); [constructor|].
    vm_compute. reflexivity.
Qed.
Print Assumptions C87_mean_refuted.

(** ** C81 for the page as it is: it always fits in memory, so [C81_octets_partial] applies. *)
Theorem C81_page_partial : forall linux listener version id start a cs T k0 w0 ok A pending s e,
  let page := page_text version id start in
  huffman_tree = Ret T -> setting listener k0 -> reached linux listener world (main_app page a) cs T k0 w0 ok A pending s ->
  args_ok a (w_os w0) -> (forall l r io b, os_fs (w_os w0) l = Some (EFile r io b) -> lenZ b < 2 ^ 64) ->
  a_status_page a = true -> w_stats w0 = no_stats -> lenZ version < 2 ^ 32 -> lenZ id < 2 ^ 32 ->
  steady w0 -> (forall n, 0 <= w_clock w0 n < 2 ^ 63) -> anyone world s e ->
  silent (e_result e) (e_trace e) \/
  exists ins txs outs byes rest,
    (exists o, frames_octets ins o /\ received (e_trace e) = rfc_preface ++ o ++ rest) /\
    answered ins txs outs /\ Forall (served_by page a (w_os w0) (w_no_new_privs w0)) txs /\
    requests (e_trace e) = concat (map tx_app txs) /\
    (exists st, rfc_blocks server_profile ([], 65536) (map tx_block txs) (map tx_fields txs) st) /\
    (byes = [] \/ exists g, byes = [g] /\ goaway_frame g) /\
    frames_octets (server_settings :: outs ++ byes) (queued (e_trace e)) /\
    forall L, (length L <= 39)%nat ->
      (forall tx n, In tx txs -> In (Hdr (str "content-length") n) (rs_headers (tx_sent tx)) -> In n L) ->
      exists st, rfc_blocks (rfc_profile 4096) ([], 4096) (map tx_sent_block txs) (map (fun tx => rs_headers (tx_sent tx)) txs) st.
Proof.
  intros linux listener version id start a cs T k0 w0 ok A pending s e page HT Hs H Ha Hf Hp Hw Hv Hi Hc Hb He.
  assert (H' : reached linux listener world (main_app (short_of page) a) cs T k0 w0 ok A pending s).
  { refine (reached_ext world (main_app page a) _ cs T (sized w0) _ _ linux listener k0 w0 Hs (sized_start w0 Hw) _ _ _ _ H).
    - intros rq w. apply sized_step; assumption.
    - intros rq w Hsz. apply main_other; [exact Hp|]. intros _ now. unfold short_of.
      pose proof (page_size version id start w0 w now Hsz Hb Hv Hi) as L. fold page in L. apply Z.ltb_lt in L. now rewrite L. }
  destruct (C81_octets_partial linux listener (short_of page) a cs T k0 w0 ok A pending s e HT Hs H' Ha (short_fits page _ Hf) He)
    as [K|(ins & txs & outs & byes & rest & K1 & K2 & _ & K4 & K5)]; [now left|right].
  exists ins, txs, outs, byes, rest. split; [exact K1|]. split; [exact K2|]. split; [|split; [exact K4|exact K5]].
  apply Forall_forall. intros tx Htx rq an Hin.
  apply (C80_answers linux listener page a cs T k0 w0 ok A pending s e rq an Hs H Ha He). rewrite K4. apply in_concat. exists (tx_app tx).
  split; [apply in_map; exact Htx|exact Hin].
Qed.
Print Assumptions C81_page_partial.
(** The total of the durations does not overflow. *)
Theorem C87_no_overflow : forall linux listener page a cs T k0 w0 ok A pending s,
  setting listener k0 -> reached linux listener world (main_app page a) cs T k0 w0 ok A pending s ->
  a_status_page a = true -> w_stats w0 = no_stats -> steady w0 -> (forall n, 0 <= w_clock w0 n < 2 ^ 63) ->
  0 <= total_duration_us (w_stats (sv_world world s)) < 2 ^ 63.
Proof.
  intros linux listener page a cs T k0 w0 ok A pending s Hs H Ha Hw Hc Hb.
  pose proof (reached_P world (main_app page a) cs T (sized w0) (fun rq w => sized_step page a Ha w0 Hc rq w) linux listener k0 w0 Hs (sized_start w0 Hw) _ _ _ _ H) as [_ _ _ _ _ K].
  pose proof (Hb (w_readings (sv_world world s))). pose proof (Hb (w_readings w0)). lia.
Qed.
Print Assumptions C87_no_overflow.
(** A clock that ends: [C86_case] again. *)
Definition ending_world : world := World an_os no_stats (fun n => Z.min (10000000 * Z.of_nat n) (2 ^ 62)) 0 true.
Example C81_page_case : forall linux T, exists s,
  reached linux 3 world (main_app the_page some_args) true T k_std ending_world true enough_resources [] s /\
  map (fun x => map (fun x => (rq_path (fst x), option_map rs_status (snd x))) (requests (e_trace (snd x)))) (sv_conns world s) =
    [[(str "/static/a.txt", Some 200); (str "/nothing", Some 404); (str "/_ion/status", Some 200)]] /\
  total_duration_us (w_stats (sv_world world s)) = 40000.
Proof. intros [] T; run three_visits. Qed.
Lemma ending_ok : steady ending_world /\ forall n, 0 <= w_clock ending_world n < 2 ^ 63.
Proof. split; [intros m n H|intros n]; cbn [ending_world w_clock]; lia. Qed.
