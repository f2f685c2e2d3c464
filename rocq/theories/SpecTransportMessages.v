(** What the transports' messages should tell. *)
From Verif Require Import Base Http AccessLog Messages Tls.

(** The report says that the connection does not work any more, other than that the peer
    has closed it. *)
Definition fails (r : tls_report) : bool :=
  match r with
  | RepHandshake (HsErr e) | RepRead (RdErr e) | RepWrite (WrErr e) =>
      match e with WantReadOrWrite | ConnectionClosed => false | _ => true end
  | RepWrite (WrPartial _) => true
  | _ => false
  end.
(** The messages that go with a report: one error if it is a failure, none if not.  That a
    client goes away during the handshake may be mentioned. *)
Definition fits (r : nat * tls_report) (ms : list message) : Prop :=
  if fails (snd r) then exists t, ms = [Msg LErr t]
  else ms = [] \/
       snd r = RepHandshake (HsErr ConnectionClosed) /\ ms = [Msg LInfo (str "client disconnected during handshake (EOF)")].
(** What a failed handshake's message should be: [code] (SSL_get_error's result) and the
    description of [e], the error because of which the handshake failed. *)
Definition tells_reason (describe : err -> bytes) (code : bytes) (e : err) (ms : list message) : Prop :=
  ms = [Msg LErr (str "TLS handshake failed: (" ++ code ++ str ") " ++ describe e)].
