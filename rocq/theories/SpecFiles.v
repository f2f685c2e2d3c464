(** What serving static files should mean. *)
From Verif Require Import Base FileSys.

(** [resolves fs n l cs l']: the components [cs], followed from the place [l] and through
    at most [n] symbolic links, lead to the place [l']. *)
Inductive resolves (fs : filesystem) : nat -> location -> list bytes -> location -> Prop :=
| resolves_done : forall n l, resolves fs n l [] l
| resolves_slash : forall n l x cs l',
    fs l = Some (EDir x) -> resolves fs n l cs l' -> resolves fs n l ([] :: cs) l'
| resolves_dot : forall n l cs l',
    fs l = Some (EDir true) -> resolves fs n l cs l' -> resolves fs n l (dot :: cs) l'
| resolves_up : forall n l cs l',
    fs l = Some (EDir true) -> resolves fs n (removelast l) cs l' -> resolves fs n l (dotdot :: cs) l'
| resolves_name : forall n l (c : bytes) cs l' e,
    fs l = Some (EDir true) -> c <> [] -> c <> dot -> c <> dotdot ->
    fs (l ++ [c]) = Some e -> (forall t, e <> ELink t) ->
    resolves fs n (l ++ [c]) cs l' -> resolves fs n l (c :: cs) l'
| resolves_link : forall n l (c : bytes) cs l' t,
    fs l = Some (EDir true) -> c <> [] -> c <> dot -> c <> dotdot ->
    fs (l ++ [c]) = Some (ELink t) ->
    resolves fs n (if absolute t then [] else l) (elements (c_str t) ++ cs) l' -> resolves fs (S n) l (c :: cs) l'.

(** A place reached without links: every name on the way is a directory entry. *)
Definition real_place (fs : filesystem) (l : location) : Prop :=
  forall (a : location) (c : bytes) b, l = a ++ c :: b ->
    c <> [] /\ c <> dot /\ c <> dotdot /\ ~ In SLASH c /\ ~ In 0 c /\ fs a = Some (EDir true) /\
    exists e, fs (a ++ [c]) = Some e /\ forall t, e <> ELink t.

(** The configured root is the directory at the real place [l]. *)
Definition root_at (o : os) (root : bytes) (l : location) : Prop :=
  root <> [] /\ ~ In 0 root /\ (exists x, os_fs o l = Some (EDir x)) /\
  resolves (os_fs o) (os_links o) (if absolute root then [] else os_cwd o) (elements root) l.

(** What the URL path asks for below the root: [rel] is what follows the prefix and one
    slash, without query; the prefix alone asks for index.html. *)
Inductive asks (prefix : bytes) : bytes -> bytes -> Prop :=
| asks_index : asks prefix prefix (str "index.html")
| asks_index_slash : asks prefix (prefix ++ [SLASH]) (str "index.html")
| asks_file : forall lead rel query,
    lead = [SLASH] \/ (lead = [] /\ absolute (rel ++ query) = false) ->
    ~ In 63 rel -> query = [] \/ hd 0 query = 63 ->
    lead ++ rel ++ query <> [] -> lead ++ rel ++ query <> [SLASH] ->
    asks prefix (prefix ++ lead ++ rel ++ query) rel.

(** The place the operating system finds for [rel], seen from the root's place; it does not
    see what follows a NUL octet. *)
Definition leads_to (o : os) (l0 : location) (rel : bytes) (l : location) : Prop :=
  resolves (os_fs o) (os_links o) (if absolute rel then [] else l0) (elements (c_str rel)) l.

Definition below (l0 l : location) : Prop := exists rest, l = l0 ++ rest.

(** [no_such fs n l cs]: following [cs] from [l] ends at a name that is missing, or wants to
    enter something that is not a directory.  (The other reasons for failing are a directory
    that may not be searched and too many links.) *)
Inductive no_such (fs : filesystem) : nat -> location -> list bytes -> Prop :=
| no_such_name : forall n l (c : bytes) cs,
    fs l = Some (EDir true) -> c <> [] -> c <> dot -> c <> dotdot -> fs (l ++ [c]) = None -> no_such fs n l (c :: cs)
| no_such_dir : forall n l (c : bytes) cs, (forall x, fs l <> Some (EDir x)) -> no_such fs n l (c :: cs)
| no_such_slash : forall n l x cs, fs l = Some (EDir x) -> no_such fs n l cs -> no_such fs n l ([] :: cs)
| no_such_dot : forall n l cs, fs l = Some (EDir true) -> no_such fs n l cs -> no_such fs n l (dot :: cs)
| no_such_up : forall n l cs,
    fs l = Some (EDir true) -> no_such fs n (removelast l) cs -> no_such fs n l (dotdot :: cs)
| no_such_after : forall n l (c : bytes) cs e,
    fs l = Some (EDir true) -> c <> [] -> c <> dot -> c <> dotdot ->
    fs (l ++ [c]) = Some e -> (forall t, e <> ELink t) -> no_such fs n (l ++ [c]) cs -> no_such fs n l (c :: cs)
| no_such_link : forall n l (c : bytes) cs t,
    fs l = Some (EDir true) -> c <> [] -> c <> dot -> c <> dotdot -> fs (l ++ [c]) = Some (ELink t) ->
    no_such fs n (if absolute t then [] else l) (elements (c_str t) ++ cs) -> no_such fs (S n) l (c :: cs).

(** Reading a path as text: ".." takes back the name before it; a slash stays at the end if
    there is one or if the last component is "." or "..". *)
Definition names (cs : list bytes) : list bytes :=
  fold_left (fun acc (c : bytes) => if bytes_eqb c dotdot then removelast acc
                                    else if bytes_eqb c dot || null c then acc else acc ++ [c]) cs [].
Definition tidy (cs : list bytes) : list bytes :=
  names cs ++ (if existsb (bytes_eqb (last cs [])) [[]; dot; dotdot] && negb (null (names cs)) then [[]] else []).
(** How a path that names nothing is read: the part that exists is followed, the rest, from
    the missing component [c] on, is text.  [q] is the result. *)
Inductive textual (o : os) (l0 : location) (rel : bytes) (q : list bytes) : Prop :=
| textual_path : forall a c b L, elements rel = a ++ c :: b -> Forall (fun d => ~ In 0 d) a ->
    resolves (os_fs o) (os_links o) (if absolute rel then [] else l0) a L ->
    no_such (os_fs o) (os_links o) (if absolute rel then [] else l0) (a ++ [c_str c]) ->
    q = tidy (L ++ c :: b) -> textual o l0 rel q.
(** The place of the absolute path with the components [q]. *)
Definition stands_at (o : os) (q : list bytes) (l : location) : Prop :=
  resolves (os_fs o) (os_links o) [] (elements (c_str (flat_map (fun c => SLASH :: c) q))) l.

(** Content types by the part of a file name after its last dot. *)
Definition known_types : list (bytes * bytes) :=
  map (fun x => (str (fst x), str (snd x)))
  [("html", "text/html; charset=utf-8"); ("htm", "text/html; charset=utf-8"); ("css", "text/css; charset=utf-8");
   ("js", "application/javascript; charset=utf-8"); ("json", "application/json"); ("xml", "application/xml");
   ("png", "image/png"); ("jpg", "image/jpeg"); ("jpeg", "image/jpeg"); ("gif", "image/gif"); ("svg", "image/svg+xml");
   ("ico", "image/x-icon"); ("txt", "text/plain; charset=utf-8"); ("pdf", "application/pdf"); ("zip", "application/zip");
   ("woff", "font/woff"); ("woff2", "font/woff2"); ("ttf", "font/ttf"); ("webp", "image/webp")]%string.
Inductive type_of_name (name : bytes) : bytes -> Prop :=
| type_known : forall a e t, name = a ++ DOT :: e -> ~ In DOT e -> In (e, t) known_types -> type_of_name name t
| type_unknown : (forall a e t, name = a ++ DOT :: e -> ~ In DOT e -> ~ In (e, t) known_types) ->
    type_of_name name (str "application/octet-stream").
