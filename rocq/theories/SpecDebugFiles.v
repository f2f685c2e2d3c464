(** What messages at level debug say about static files: which file, its true size and the
    content type that is sent.  Independent of the model's functions. *)
From Verif Require Import Base Http FileSys SpecFiles App SpecConn SpecProgram AccessLog Messages.

(** The messages at level debug. *)
Definition asides (ms : list message) : list message := filter (fun m => match m_level m with LDebug => true | _ => false end) ms.

(** How a place is written. *)
Definition written (l : list bytes) : bytes := match l with [] => str "/" | _ => flat_map (fun c => 47 :: c) l end.
Definition not_found (s : bytes) : message := Msg LDebug (str "file not found or not readable: " ++ s).
(** About a regular file that may be read, with the content [b], written [s], of type [t];
    reading it succeeds if [io]. *)
Definition about_file (head io : bool) (s t b : bytes) (ms : list message) : Prop :=
  exists n, decimal n (lenZ b) /\
    if head then ms = [Msg LDebug (str "Returning metadata for static file: " ++ s ++ str " (" ++ n ++ str " bytes, " ++ t ++ str ")")]
    else if io then
      ms = [Msg LDebug (str "Read file: " ++ s ++ str " (" ++ n ++ str " bytes)");
            Msg LDebug (str "serving static file: " ++ s ++ str " (" ++ n ++ str " bytes, " ++ t ++ str ")")]
    else ms = [].

(** The messages for a request for [p] when [root] is published under [url]; the cases are
    those of [file_answer]. *)
Inductive file_told (o : os) (url root p : bytes) (head : bool) : list message -> Prop :=
| told_refused : file_answer o url root p head (Response 403 [] []) -> file_told o url root p head []
| told_found : forall l0 rel (d : location) (name : bytes) io b t ms, root_at o root l0 -> asks url p rel ->
    leads_to o l0 rel (d ++ [name]) -> below l0 (d ++ [name]) ->
    os_fs o (d ++ [name]) = Some (EFile true io b) -> type_of_name name t ->
    about_file head io (written (d ++ [name])) t b ms -> file_told o url root p head ms
| told_unreadable : forall l0 rel l, root_at o root l0 -> asks url p rel -> leads_to o l0 rel l -> below l0 l ->
    (forall io b, os_fs o l <> Some (EFile true io b)) -> file_told o url root p head [not_found (written l)]
| told_text_found : forall l0 rel (q : list bytes) (name : bytes) l io b t ms, root_at o root l0 -> asks url p rel ->
    textual o l0 rel (q ++ [name]) -> below l0 (q ++ [name]) -> stands_at o (q ++ [name]) l ->
    os_fs o l = Some (EFile true io b) -> type_of_name name t ->
    about_file head io (written (q ++ [name])) t b ms -> file_told o url root p head ms
| told_text_missing : forall l0 rel q, root_at o root l0 -> asks url p rel -> textual o l0 rel q -> below l0 q ->
    (forall l io b, stands_at o q l -> os_fs o l <> Some (EFile true io b)) -> file_told o url root p head [not_found (written q)].

Section Program.
  Variable page : stats -> Z -> bytes.
  Variable a : args.
  Variable o : os.
  Variable nnp : bool.
  (** Only requests for published files have messages ... *)
  Inductive first_told (p m : bytes) : list message -> Prop :=
  | first_told_own : own_route a nnp p m -> first_told p m []
  | first_told_file : forall url root ms, ~ own_route a nnp p m -> published a url root p m ->
      file_told o url root p (bytes_eqb m HEAD) ms -> first_told p m ms
  | first_told_nothing : ~ own_route a nnp p m -> (forall url root, ~ published a url root p m) -> first_told p m [].
  (** ... and those after which the page for 404 is looked for. *)
  Definition place (path : bytes) (l : location) : Prop :=
    path <> [] /\ resolves (os_fs o) (os_links o) (if absolute path then [] else os_cwd o) (elements path) l.
  Inductive program_told (p m : bytes) : list message -> Prop :=
  | told_same : forall r ms, first_told p m ms -> first_answer page a o nnp p m r ->
      a_status_404_file_path a = [] \/ rs_status r <> 404 -> program_told p m ms
  | told_page : forall r ms ms' l io b t, first_told p m ms -> first_answer page a o nnp p m r -> rs_status r = 404 ->
      place (a_status_404_file_path a) l -> os_fs o l = Some (EFile true io b) -> type_of_name (a_status_404_file_path a) t ->
      about_file false io (a_status_404_file_path a) t b ms' -> program_told p m (ms ++ ms')
  | told_no_page : forall r ms, first_told p m ms -> first_answer page a o nnp p m r -> rs_status r = 404 ->
      a_status_404_file_path a <> [] ->
      (forall l io b, place (a_status_404_file_path a) l -> os_fs o l <> Some (EFile true io b)) ->
      program_told p m (ms ++ [not_found (a_status_404_file_path a)]).
End Program.
