(** C111, C112: tracing. *)
From Verif Require Import Base BaseLemmas Huffman DynTable Http Conn SpecFrames SpecConn ConnBasic ConnWit FileSys Files FilesServe PropFiles Router App PropApp AccessLog Messages SpecMessages MessagesFiles
  PropMessages Spans SpecSpans SpansProofs SpansWit.

(** ** C111.  Every request has one span, with its method, target, client and the status of
    its response (false for requests that do not reach the application, see
    [C111_incomplete_refuted]). *)

(** Tracing off: nothing is exported.  On: in order, one span for each request the application
    got, with these attributes, a blank one for each request answered without it, and at most
    one more blank one, when the connection is given up. *)
Theorem C111_spans_partial : forall W app cs T app_says thrown unhandled ip others t0 (w0 : W) A r c tr w ps,
  traced W app cs T app_says thrown unhandled ip others t0 w0 A r c tr w ps ->
  exported (Some (str "true")) ps = [] /\
  forall otel_disabled, otel_disabled <> Some (str "true") ->
    accounts ip tr (exported otel_disabled ps) \/
    (r = Some WantWrite \/ r = Some DiscardConnection) /\ exists l, exported otel_disabled ps = l ++ [blank] /\ accounts ip tr l.
Proof.
  intros W app cs T says thrown unh ip others t0 w0 A r c tr w ps H. split; [reflexivity|]. intros env He. unfold exported.
  apply telemetry_on_spec in He. rewrite He. eapply traced_spans; eauto.
Qed.
Print Assumptions C111_spans_partial.

(** A request the application answers, one without :path, and one that is not decodable. *)
Definition home : bytes := str "192.0.2.7".
Example C111_spans_case : forall T cs, exists c tr w ps,
  traced unit hi cs T no_words oops boom home eq 0 tt any (Some DiscardConnection) c tr w ps /\
  received tr = w_hello ++ w_get ++ w_no_path ++ w_index /\
  exported None ps =
    [Span (str "http_request") [(str "http.method", AString (str "GET")); (str "http.target", AString (str "/"));
                                (str "ion.client_ip", AString (str "192.0.2.7")); (str "http.status_code", AInt 200)];
     Span (str "http_request") []; Span (str "http_request") []] /\
  exported (Some (str "TRUE")) ps = exported None ps.
Proof.
  intros T cs. apply (by_traced hi cs T no_words oops boom home eq 0 tt any [deliver [octets (w_hello ++ w_get ++ w_no_path ++ w_index)]]); [scripts_ok|apply Forall_any|].
  destruct cs; vm_compute; repeat split.
Qed.

(** Every session is traced, and tracing changes nothing about it. *)
Theorem C111_traced : forall W app cs T app_says thrown unhandled ip others t0 (w0 : W) A r c tr w,
  session W app cs T others t0 w0 A r c tr w <-> exists ps, traced W app cs T app_says thrown unhandled ip others t0 w0 A r c tr w ps.
Proof.
  intros W app cs T says thrown unh ip others t0 w0 A r c tr w. split.
  - intros H. apply session_narrated with (app_says := says) (thrown := thrown) (unhandled := unh) in H. destruct H as [ms H].
    apply narrated_traced with (ip := ip) in H. destruct H as (ps & H & _). eauto.
  - intros [ps H]. eapply narrated_session, traced_narrated; eauto.
Qed.
Print Assumptions C111_traced.

(** A request without :path is answered with 400, but its span says neither this nor
    anything else. *)
Theorem C111_incomplete_refuted : forall T cs otel_disabled, otel_disabled <> Some (str "true") -> exists c tr w ps,
  traced unit hi cs T no_words oops boom home eq 0 tt any (Some WantRead) c tr w ps /\
  logged tr = [([Hdr (str ":method") (str "GET")], 400, 0)] /\ exported otel_disabled ps = [Span (str "http_request") []].
Proof.
  intros T cs env He. apply telemetry_on_spec in He. unfold exported. rewrite He.
  apply (by_traced hi cs T no_words oops boom home eq 0 tt any [deliver [octets (w_hello ++ w_no_path)]]); [scripts_ok|apply Forall_any|].
  destruct cs; vm_compute; repeat split.
Qed.
Print Assumptions C111_incomplete_refuted.

(** ** C112.  Lines of the console that are about a request carry the identifier of its trace,
    others carry none (false for exceptions that leave the processing of a request, see
    [C112_unhandled_refuted]). *)

(** What is written during a span is about the request the span describes; what is written
    outside of spans is about the connection. *)
Theorem C112_messages_partial : forall W app cs T app_says thrown unhandled ip others t0 (w0 : W) A r c tr w ps,
  (forall rq w w' r, app rq w = (w', Answers r) -> 0 <= rs_status r) ->
  traced W app cs T app_says thrown unhandled ip others t0 w0 A r c tr w ps ->
  narrated W app cs T app_says thrown unhandled others t0 w0 A r c tr w (passage_messages ps) /\
  (forall s ms, In (Inside s ms) ps ->
     (exists rq a, In (EvRequest rq a) tr /\ describes ip rq a s /\ about app app_says thrown rq a ms) \/
     (s = blank /\ (ms = [Msg LErr (str "invalid request: missing path or method"); Msg LInfo (str "400 status code sent w/headers")] \/
                    Forall (fun m => m_level m = LErr) ms))) /\
  (forall m, In (Outside m) ps -> general (fun t => exists c w, t = unhandled c w) m).
Proof.
  intros W app cs T says thrown unh ip others t0 w0 A r c tr w ps Happ H. split; [eapply traced_narrated; eauto|].
  apply traced_fitting in H; [|exact Happ]. rewrite Forall_forall in H. split.
  - intros s ms Hi. exact (H _ Hi).
  - intros m Hi. exact (H _ Hi).
Qed.
Print Assumptions C112_messages_partial.

Example C112_messages_case : forall T cs, exists c tr w ps,
  traced unit failing cs T no_words oops boom home eq 0 tt any (Some DiscardConnection) c tr w ps /\
  received tr = w_hello ++ w_get ++ w_index /\
  ps = [Outside (info (str "valid HTTP/2 preface received"));
        Inside (Span (str "http_request") [(str "http.method", AString (str "GET")); (str "http.target", AString (str "/"));
                                           (str "ion.client_ip", AString (str "192.0.2.7")); (str "http.status_code", AInt 500)])
               [err (str "error processing request: oops"); info (str "500 status code sent w/headers")];
        Inside (Span (str "http_request") []) [err (str "invalid dynamic table index lookup for header (idx: 126, sz: 0)")];
        Outside (err (str "protocol error. closing connection"))].
Proof.
  intros T cs. apply (by_traced failing cs T no_words oops boom home eq 0 tt any [deliver [octets (w_hello ++ w_get ++ w_index)]]); [scripts_ok|apply Forall_any|].
  destruct cs; vm_compute; repeat split.
Qed.

(** On the console: the lines of the k-th span begin, after time and level, with its
    identifier in brackets; lines outside of spans have no such mark; none have if tracing is
    off. *)
Theorem C112_marks : forall l otel_disabled ids stamps a p b, otel_disabled <> Some (str "true") ->
  length ids = length (passage_spans (a ++ p :: b)) -> length stamps = length (passage_messages (a ++ p :: b)) ->
  exists x y ts,
    console l (combine stamps (trace_marks otel_disabled ids (a ++ p :: b))) (passage_messages (a ++ p :: b)) =
      x ++ console l (map (fun t => (t, match p with Outside _ => [] | Inside _ _ => str "[" ++ nth (length (passage_spans a)) ids [] ++ str "] " end)) ts)
             (passage_messages [p]) ++ y /\
    length ts = length (passage_messages [p]) /\
    x = console l (combine (firstn (length (passage_messages a)) stamps) (trace_marks otel_disabled (firstn (length (passage_spans a)) ids) a)) (passage_messages a).
Proof. exact console_passage. Qed.
Print Assumptions C112_marks.
Theorem C112_unmarked : forall l ids stamps ps, length stamps = length (passage_messages ps) ->
  console l (combine stamps (trace_marks (Some (str "true")) ids ps)) (passage_messages ps) = console l (map (fun t => (t, [])) stamps) (passage_messages ps).
Proof. exact console_off. Qed.
Print Assumptions C112_unmarked.

Example C112_marks_case :
  let ps := [Outside (info (str "valid HTTP/2 preface received")); Inside blank [info (str "one"); info (str "two")]; Inside blank [err (str "three")]] in
  let ids := [str "0af7651916cd43dd8448eb211c80319c"; str "4bf92f3577b34da6a3ce929d0e0e4736"] in
  let stamps := [str "t1"; str "t2"; str "t3"; str "t4"] in
  console LInfo (combine stamps (trace_marks None ids ps)) (passage_messages ps) =
    str "[t1] [info] valid HTTP/2 preface received" ++ [10] ++
    str "[t2] [info] [0af7651916cd43dd8448eb211c80319c] one" ++ [10] ++
    str "[t3] [info] [0af7651916cd43dd8448eb211c80319c] two" ++ [10] ++
    str "[t4] [error] [4bf92f3577b34da6a3ce929d0e0e4736] three" ++ [10] /\
  console LErr (combine stamps (trace_marks (Some (str "true")) ids ps)) (passage_messages ps) = str "[t4] [error] three" ++ [10].
Proof. split; reflexivity. Qed.

(** An exception thrown for a request outside of its handler is reported without the
    identifier of the request, whose trace tells of no failure either. *)
Definition escaping (_ : request) (w : unit) : unit * app_answer := (w, Escapes).
Theorem C112_unhandled_refuted : forall T cs, exists c tr w ps,
  traced unit escaping cs T no_words oops boom home eq 0 tt any (Some DiscardConnection) c tr w ps /\
  received tr = w_hello ++ w_get /\
  In (Outside (Msg LErr (str "unhandled error processing connection: boom"))) ps /\
  passage_spans ps = [Span (str "http_request") [(str "http.method", AString (str "GET")); (str "http.target", AString (str "/"));
                                                 (str "ion.client_ip", AString (str "192.0.2.7"))]].
Proof.
  intros T cs. apply (by_traced escaping cs T no_words oops boom home eq 0 tt any [deliver [octets (w_hello ++ w_get)]]); [scripts_ok|apply Forall_any|].
  destruct cs; vm_compute; repeat split; auto.
Qed.
Print Assumptions C112_unhandled_refuted.
