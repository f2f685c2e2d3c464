(** Model of TlsContext::alpn_callback, tls_context.cpp:67-85, octet by octet, with the
    function SSL_select_next_proto of the TLS library (OpenSSL before the fix of
    CVE-2024-5535; later versions differ only for lists that are not well-formed, which the
    library does not pass to the callback). *)
From Verif Require Import Base.

(** Where the chosen name is: the static array of the callback or the client's list, with
    the offset of its first octet. *)
Inductive place := InServer (i : Z) | InClient (j : Z).

(** memcmp(a, b, n) == 0; reading past the end of [b] is undefined (it is within [a]). *)
Fixpoint same_octets (a b : bytes) : out bool :=
  match a, b with
  | [], _ => Ret true
  | _ :: _, [] => Undef
  | x :: a', y :: b' => if x =? y then same_octets a' b' else Ret false
  end.
(** The inner loop: the name [p] among the client's, of which [client] is what is left. *)
Fixpoint offered (fuel : nat) (p client : bytes) : out bool :=
  match client with
  | [] => Ret false
  | n :: r =>
    match fuel with
    | O => Fuel
    | S f =>
      let! same := if n =? lenZ p then same_octets p r else Ret false in
      if same then Ret true else offered f p (skipn (Z.to_nat n) r)
    end
  end.
(** The outer loop: [i] octets of the server's list are behind.  The result says whether
    there is a common name (OPENSSL_NPN_NEGOTIATED), where the chosen one is, and its length. *)
Fixpoint select_next_proto (fuel : nat) (i : Z) (server client : bytes) : out (bool * place * Z) :=
  match server with
  | [] => match client with n :: _ => Ret (false, InClient 1, n) | [] => Undef end
  | n :: r =>
    match fuel with
    | O => Fuel
    | S f =>
      let! found := offered (length client) (firstn (Z.to_nat n) r) client in
      if found then Ret (true, InServer (i + 1), n)
      else select_next_proto f (i + 1 + n) (skipn (Z.to_nat n) r) client
    end
  end.
(** tls_context.cpp:69. *)
Definition supported_protos : bytes := [2; 104; 50].
(** openssl/tls1.h; tls_context.cpp:77,84. *)
Definition SSL_TLSEXT_ERR_OK := 0.
(** The callback: its result, the chosen name, and whether its debug message says
    "negotiated" or "failed, using default". *)
Definition alpn_callback (client : bytes) : out (Z * place * Z * bool) :=
  let! (result, out, outlen) := select_next_proto (length supported_protos) 0 supported_protos client in
  if result then Ret (SSL_TLSEXT_ERR_OK, out, outlen, true)
  else Ret (SSL_TLSEXT_ERR_OK, InServer 1, nth 0 supported_protos 0, false).
(** The octets at a place. *)
Definition name_at (p : place) (n : Z) (client : bytes) : bytes :=
  match p with
  | InServer i => firstn (Z.to_nat n) (skipn (Z.to_nat i) supported_protos)
  | InClient j => firstn (Z.to_nat n) (skipn (Z.to_nat j) client)
  end.
