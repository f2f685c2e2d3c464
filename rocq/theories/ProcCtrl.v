(** Model of app/proc_ctrl.cpp and of its use in app/main.cpp and app/test_routes.cpp.
    [nnp] is the attribute no_new_privs of the process (prctl(2)): inherited from the parent,
    handed down to threads and children, it can be set but not be taken back. *)
From Verif Require Import Base AccessLog Messages FileSys Files Router App.

(** What the system says to prctl: it is carried out, or -1 with strerror(errno). *)
Inductive prctl_result := Accepted | Refused (why : bytes).
(** ProcessControl::enable_no_new_privs, proc_ctrl.cpp:11-22: the value returned, the
    attribute afterwards, the messages. *)
Definition enable_no_new_privs (linux : bool) (p : prctl_result) (nnp : bool) : bool * bool * list message :=
  if linux then
    match p with
    | Refused why => (false, nnp, [Msg LWarn (str "failed to set PR_SET_NO_NEW_PRIVS: " ++ why)])
    | Accepted => (true, true, [Msg LDebug (str "PR_SET_NO_NEW_PRIVS enabled")])
    end
  else (false, nnp, []).
(** ProcessControl::check_no_new_privs, proc_ctrl.cpp:24-35. *)
Definition check_no_new_privs (linux : bool) (p : prctl_result) (nnp : bool) : bool * list message :=
  if linux then
    match p with
    | Refused why => (false, [Msg LWarn (str "failed to get PR_GET_NO_NEW_PRIVS: " ++ why)])
    | Accepted => (nnp, [])
    end
  else (false, []).
(** enable_no_new_privs_on_linux, main.cpp:77-81, called in line 111: the value is dropped. *)
Definition enable_no_new_privs_on_linux (linux : bool) (p : prctl_result) (nnp : bool) : bool * list message :=
  if linux then let '(_, nnp, ms) := enable_no_new_privs linux p nnp in (nnp, ms) else (nnp, []).
(** What the handlers of the program find: /_tests/no_new_privs (test_routes.cpp:14-19) asks
    check_no_new_privs, for which the system always says the same, [get]. *)
Definition with_privs (linux : bool) (get : prctl_result) (nnp : bool) (w : world) : world :=
  World (w_os w) (w_stats w) (w_clock w) (w_readings w) (fst (check_no_new_privs linux get nnp)).
(** The world when the server is made, and the messages before. *)
Definition at_start (linux : bool) (set get : prctl_result) (inherited : bool) (w : world) : world * list message :=
  let (nnp, ms) := enable_no_new_privs_on_linux linux set inherited in (with_privs linux get nnp w, ms).
