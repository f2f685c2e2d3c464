(** What the console should say at the beginning and at the end. *)
From Verif Require Import Base AccessLog Messages FileSys Files App StartMessages.

(** The arguments [a] do not make a server, because of what [t] says.  TLS needs a
    certificate and a key that the library accepts. *)
Inductive refused (what_exists : bytes -> bytes) (o : os) (l : library) (a : args) : bytes -> Prop :=
| no_certificate : a_cleartext a = false -> a_cert_path a = [] -> refused what_exists o l a (str "TLS certificate path not set.")
| no_key : a_cleartext a = false -> a_cert_path a <> [] -> a_key_path a = [] -> refused what_exists o l a (str "TLS private key path not set.")
| unknown_certificate : a_cleartext a = false -> a_cert_path a <> [] -> a_key_path a <> [] ->
    fs_exists o (a_cert_path a) = Throw -> refused what_exists o l a (what_exists (a_cert_path a))
| missing_certificate : a_cleartext a = false -> a_cert_path a <> [] -> a_key_path a <> [] ->
    fs_exists o (a_cert_path a) = Ret false -> refused what_exists o l a (str "certificate file not found")
| unknown_key : a_cleartext a = false -> a_cert_path a <> [] -> a_key_path a <> [] -> fs_exists o (a_cert_path a) = Ret true ->
    fs_exists o (a_key_path a) = Throw -> refused what_exists o l a (what_exists (a_key_path a))
| missing_key : a_cleartext a = false -> a_cert_path a <> [] -> a_key_path a <> [] -> fs_exists o (a_cert_path a) = Ret true ->
    fs_exists o (a_key_path a) = Ret false -> refused what_exists o l a (str "private key file not found")
| library_says : forall t, a_cleartext a = false -> a_cert_path a <> [] -> a_key_path a <> [] -> fs_exists o (a_cert_path a) = Ret true ->
    fs_exists o (a_key_path a) = Ret true ->
    In (l, t) [(NoContext, str "failed to create SSL context"); (BadCertificate, str "failed to load certificate file");
               (BadKey, str "failed to load private key file"); (NoMatch, str "private key does not match certificate")] ->
    refused what_exists o l a t.

(** What is switched on is announced. *)
Definition announced (a : args) (before : list message) : Prop :=
  (a_under_test a = true <-> In (Msg LInfo (str "running under test mode")) before) /\
  (a_status_page a = true <-> In (Msg LInfo (str "status page enabled: /_ion/status")) before) /\
  (forall url root, a_static_map a = [url; root] ->
    In (Msg LInfo (str "serving static files at '" ++ url ++ str "' -> '" ++ root ++ str "'")) before) /\
  (forall t, In (Msg LInfo (str "serving static files at" ++ t)) before ->
    exists url root, a_static_map a = [url; root] /\ t = str " '" ++ url ++ str "' -> '" ++ root ++ str "'").
