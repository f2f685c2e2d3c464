(** What serving files that change meanwhile should mean. *)
From Verif Require Import Base Http FileSys SpecConn SpecFiles FilesRace.

(** At every moment the root is the directory at the real place [l0]. *)
Definition settled (H : history) (root : bytes) (l0 : location) : Prop :=
  forall k, real_place (os_fs (h_os H k)) (os_cwd (h_os H k)) /\ root_at (h_os H k) root l0 /\
    os_cwd (h_os H k) = os_cwd (h_os H 0).

Definition is_file (e : option entry) : Prop := exists readable io b, e = Some (EFile readable io b).
(** What is there and is neither a regular file nor a link. *)
Definition is_odd (e : option entry) : Prop := (exists x, e = Some (EDir x)) \/ e = Some EOther.

(** The answer was made from the regular file at [l]: for GET as many octets as it had when it
    was opened, which are those it has when it is read; for HEAD its size at some moment. *)
Definition taken_from (H : history) (head : bool) (l : location) (r : response) : Prop :=
  if head then
    rs_body r = [] /\ exists k readable io b n, os_fs (h_os H k) l = Some (EFile readable io b) /\
      first_field (rs_headers r) (str "content-length") n /\ decimal n (lenZ b)
  else exists k b more, os_fs (h_os H k) l = Some (EFile true true b) /\
    lenZ (rs_body r) = lenZ b /\ h_later H b = rs_body r ++ more.

(** Later, files have changed or vanished; nothing else has changed, nothing has appeared. *)
Definition fades (o o' : os) : Prop :=
  os_links o' = os_links o /\
  forall l, os_fs o' l = os_fs o l \/ (is_file (os_fs o l) /\ (os_fs o' l = None \/ is_file (os_fs o' l))).
(** Later, files have changed, vanished or appeared; nothing else has changed. *)
Definition only_files (o o' : os) : Prop :=
  os_links o' = os_links o /\ os_cwd o' = os_cwd o /\
  forall l, os_fs o' l = os_fs o l \/
    ((os_fs o l = None \/ is_file (os_fs o l)) /\ (os_fs o' l = None \/ is_file (os_fs o' l))).
