(** What the messages of all levels tell about the transports. *)
From Verif Require Import Base Http SpecConn AccessLog Messages Tls.

(** The messages that go with what a call reports. *)
Inductive record : tls_report -> list message -> Prop :=
| read_octets : forall d from n, d <> [] -> In from [str "TCP socket"; str "SSL"] -> decimal n (lenZ d) ->
    record (RepRead (RdData d)) [Msg LTrace (str "reading from " ++ from); Msg LTrace (str "successfully read " ++ n ++ str " bytes from " ++ from)]
| read_waits : forall from t, In (from, t) [(str "TCP socket", str "TCP want read"); (str "SSL", str "SSL want read"); (str "SSL", str "SSL want write")] ->
    record (RepRead (RdErr WantReadOrWrite)) [Msg LTrace (str "reading from " ++ from); Msg LTrace t]
| read_closed : forall from t, In (from, t) [(str "TCP socket", str "TCP connection closed"); (str "SSL", str "TLS connection closed")] ->
    record (RepRead (RdErr ConnectionClosed)) [Msg LTrace (str "reading from " ++ from); Msg LDebug t]
| read_fails : forall from what why, In (from, what) [(str "TCP socket", str "TCP read error: "); (str "SSL", str "TLS read error (SSL_ERROR_*): ")] ->
    record (RepRead (RdErr OtherError)) [Msg LTrace (str "reading from " ++ from); Msg LErr (what ++ why)]
| read_wrong :
    record (RepRead (RdErr TransportProtocolError)) [Msg LTrace (str "reading from SSL"); Msg LErr (str "TLS protocol error (SSL_ERROR_SSL)")]
| wrote : forall size to n, In to [str "TCP socket"; str "SSL"] -> decimal n size ->
    record (RepWrite (WrOk size)) [Msg LTrace (str "successfully wrote " ++ n ++ str " bytes to " ++ to)]
| wrote_part : forall taken to n size, In to [str "TCP"; str "SSL"] -> decimal n taken ->
    record (RepWrite (WrPartial taken)) [Msg LErr (to ++ str " partial write: wrote " ++ n ++ str " of " ++ size ++ str " bytes")]
| write_waits : forall t, In t [str "TCP want write"; str "SSL want read"; str "SSL want write"] -> record (RepWrite (WrErr WantReadOrWrite)) [Msg LTrace t]
| write_closed : record (RepWrite (WrErr ConnectionClosed)) [Msg LDebug (str "TLS connection closed")]
| write_fails : forall why, record (RepWrite (WrErr WriteError)) [Msg LErr (str "TCP write error: " ++ why)]
| write_wrong : forall code, record (RepWrite (WrErr TransportProtocolError)) [Msg LErr (str "TLS protocol error (SSL_ERROR" ++ code ++ str ")")]
| shaken : record (RepHandshake HsOk) []
| shake_waits : record (RepHandshake (HsErr WantReadOrWrite)) [Msg LTrace (str "TLS handshake want read/write")]
| shake_closed : forall m, In m [Msg LDebug (str "TLS connection closed by peer before handshake (likely health check)");
                                 Msg LInfo (str "client disconnected during handshake (EOF)")] ->
    record (RepHandshake (HsErr ConnectionClosed)) [m]
| shake_wrong : forall code why, record (RepHandshake (HsErr TransportProtocolError)) [Msg LErr (str "TLS handshake failed: (" ++ code ++ str ") " ++ why)].

(** What is said about the choice of a protocol, and the messages of a call with those. *)
Definition about_protocol (m : message) : Prop := In m [Msg LDebug (str "ALPN negotiated: h2"); Msg LDebug (str "ALPN negotiation failed, using default: h2")].
Definition recorded (r : tls_report) (ms : list message) : Prop := exists hello rest, ms = hello ++ rest /\ Forall about_protocol hello /\ record r rest.

(** Reports that agree in all but the octets themselves; a successful handshake is not
    mentioned. *)
Definition alike (r r' : tls_report) : Prop :=
  match r, r' with RepRead (RdData a), RepRead (RdData b) => lenZ a = lenZ b | _, _ => r = r' end.
Definition mentioned (r : tls_report) : bool := match r with RepHandshake HsOk => false | _ => true end.
