(** What tracing should tell of a connection. *)
From Verif Require Import Base SpecFrames SpecConn Http AccessLog Messages SpecMessages Spans.

(** The span of a request that the application got, and that of any other. *)
Inductive describes (ip : bytes) : request -> option response -> span -> Prop :=
| describes_answered : forall m p hs r,
    describes ip (Request m p hs) (Some r)
      (Span (str "http_request") [(str "http.method", AString m); (str "http.target", AString p);
                                  (str "ion.client_ip", AString ip); (str "http.status_code", AInt (rs_status r))])
| describes_unanswered : forall m p hs,
    describes ip (Request m p hs) None
      (Span (str "http_request") [(str "http.method", AString m); (str "http.target", AString p); (str "ion.client_ip", AString ip)]).
Definition blank : span := Span (str "http_request") [].

(** The spans an event leads to: one for each request that the application got, a blank one
    for each request answered without it. *)
Inductive covers (ip : bytes) : event -> list span -> Prop :=
| covers_request : forall rq a s, describes ip rq a s -> covers ip (EvRequest rq a) [s]
| covers_incomplete : forall e, incomplete_request e -> covers ip e [blank]
| covers_other : forall e, ~ incomplete_request e -> (forall rq a, e <> EvRequest rq a) -> covers ip e [].
Definition accounts (ip : bytes) (tr : trace) (spans : list span) : Prop :=
  exists sss, Forall2 (covers ip) tr sss /\ spans = concat sss.

(** The messages written during the span of a request: those of the application, one if it
    failed, and the report of the response. *)
Inductive about {W} (app : request -> W -> W * app_answer) (app_says : request -> W -> list message) (thrown : request -> W -> bytes)
    (rq : request) : option response -> list message -> Prop :=
| about_answer : forall w w' r ms, app rq w = (w', Answers r) -> told (EvLog (rq_headers rq) (rs_status r) (lenZ (rs_body r))) ms ->
    about app app_says thrown rq (Some r) (app_says rq w ++ ms)
| about_failure : forall w w', app rq w = (w', Fails) ->
    about app app_says thrown rq (Some (Response 500 [] []))
      (app_says rq w ++ [Msg LErr (str "error processing request: " ++ thrown rq w); Msg LInfo (str "500 status code sent w/headers")])
| about_escape : forall w w', app rq w = (w', Escapes) -> about app app_says thrown rq None (app_says rq w).
(** Messages written while no request is being processed. *)
Definition general (unhandled : bytes -> Prop) (m : message) : Prop :=
  m = Msg LInfo (str "valid HTTP/2 preface received") \/
  m = Msg LErr (str "invalid HTTP/2 preface received") \/
  (exists n, 16384 < n /\ exists d, decimal d n /\ m = Msg LWarn (str "frame too big (sz: " ++ d ++ str ", max: 16384)")) \/
  m = Msg LErr (str "invalid SETTINGS frame: data size not a multiple of 6") \/
  m = Msg LErr (str "protocol error. closing connection") \/
  m = Msg LErr (str "transport protocol error") \/ m = Msg LErr (str "transport write error") \/
  m = Msg LErr (str "transport other error (presumed non fatal)") \/
  m = Msg LErr (str "failed to flush write buffer: error: 1") \/ m = Msg LErr (str "failed to flush write buffer: error: 2") \/
  m = Msg LErr (str "failed to flush write buffer: error: 3") \/ m = Msg LErr (str "failed to flush write buffer: error: 4") \/
  (exists t, unhandled t /\ m = Msg LErr (str "unhandled error processing connection: " ++ t)).
