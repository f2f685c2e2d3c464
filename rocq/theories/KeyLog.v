(** Model of the key log callback, lib/transports/tls_context.cpp:42-49.  OpenSSL calls it
    with every line of secrets of every connection of the context. *)
From Verif Require Import Base.

(** Files by name.  [None]: std::ofstream cannot open it for appending; else its content (a
    file that is not there is made).  Writing succeeds. *)
Definition files := bytes -> option bytes.
(** Writing to a file opened with std::ios::app, tls_context.cpp:44-46. *)
Definition append (f : files) (name text : bytes) : files :=
  fun n => if bytes_eqb n name then match f n with Some c => Some (c ++ text) | None => None end else f n.
(** The lambda; [env] is getenv("SSLKEYLOGFILE") at that time.  [line] is a C string: [<<]
    writes it up to its end. *)
Definition keylog (env : option bytes) (line : bytes) (f : files) : files :=
  match env with
  | None => f
  | Some name => match f name with Some _ => append f name (line ++ [10]) | None => f end
  end.
(** The calls of a process; nothing changes the environment (main.cpp only reads it). *)
Definition keylogs (env : option bytes) (lines : list bytes) (f : files) : files := fold_left (fun f line => keylog env line f) lines f.
