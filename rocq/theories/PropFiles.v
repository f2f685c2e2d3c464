(** C57-C61: static files. *)
From Coq Require Import Permutation.
From Verif Require Import Base BaseLemmas Http FileSys Files SpecFiles SpecConn ConnTerm FilesProofs FilesServe.

(** ** A small disk for the examples *)
Definition loc (l : list string) : location := map str l.
Fixpoint locs_eqb (a b : location) : bool :=
  match a, b with
  | [], [] => true
  | x :: a', y :: b' => bytes_eqb x y && locs_eqb a' b'
  | _, _ => false
  end.
Definition disk (entries : list (location * entry)) : filesystem :=
  fun l => match find (fun x => locs_eqb (fst x) l) entries with Some x => Some (snd x) | None => None end.
Definition a_disk : filesystem := disk
  [([], EDir true); (loc ["srv"], EDir true); (loc ["srv"; "www"], EDir true); (loc ["etc"], EDir true);
   (loc ["etc"; "passwd"], EFile true true (str "root"));
   (loc ["srv"; "www"; "index.html"], EFile true true (str "hello"));
   (loc ["srv"; "www"; "a.txt"], EFile true true (str "text"));
   (loc ["srv"; "www"; "empty"], EFile true true []);
   (loc ["srv"; "www"; "key"], EFile false true (str "secret"));
   (loc ["srv"; "www"; "bad"], EFile true false (str "gone"));
   (loc ["srv"; "www"; "in"], ELink (str "a.txt"));
   (loc ["srv"; "www"; "link"], ELink (str "/etc"))]%string.
Definition an_os : os := OS a_disk [] 40.
Definition www : static := Static (str "/static") (str "/srv/www").
Definition www_at : location := loc ["srv"; "www"]%string.

Lemma an_os_cwd : real_place (os_fs an_os) (os_cwd an_os).
Proof. exact (real_nil _). Qed.
Lemma www_root : root_at an_os (st_root www) www_at.
Proof.
  split; [easy|]. split; [cbv; intuition discriminate|]. split; [now exists true|].
  apply walk_resolves. reflexivity.
Qed.
Ltac no_zero := cbv; intuition discriminate.
Ltac found := unfold leads_to; apply walk_resolves; reflexivity.
Lemma asks_plain prefix (rel : bytes) : rel <> [] -> ~ In 63 rel -> asks prefix (prefix ++ SLASH :: rel) rel.
Proof.
  intros H1 H2. replace (SLASH :: rel) with ([SLASH] ++ rel ++ []) by (cbn; now rewrite app_nil_r).
  apply asks_file; auto; rewrite app_nil_r; [easy|]. intros E. injection E as E. easy.
Qed.
Ltac asks_plain :=
  match goal with |- asks ?p ?u ?r => apply (asks_plain p r); [easy|no_zero] end.

(** ** C57.  False as stated: the check works on the text of a path that does not exist,
    the file is opened through the operating system.  With a symbolic link below the root
    that leads out, a missing directory and ".." reach a file outside. *)
Theorem C57_contained_refuted : exists o h l0 p r,
  real_place (os_fs o) (os_cwd o) /\ root_at o (st_root h) l0 /\ static_matches h p = true /\
  static_handle o h p false = Ret r /\ rs_status r = 200 /\ rs_body r <> [] /\
  forall l io b, os_fs o l = Some (EFile true io b) -> rs_body r = b -> ~ below l0 l.
Proof.
  exists an_os, www, www_at, (str "/static/none/../link/passwd"), (Response 200 [Hdr (str "content-type") octet_stream] (str "root")).
  split; [exact an_os_cwd|]. split; [exact www_root|]. split; [reflexivity|]. split; [vm_compute; reflexivity|].
  split; [reflexivity|]. split; [easy|]. intros l io b E H [rest ->]. cbn [os_fs an_os rs_body] in *. subst b.
  unfold a_disk, disk in E. destruct (find _ _) as [x|] eqn:F; [|discriminate]. apply find_some in F as [F1 F2].
  injection E as E. cbn [In] in F1.
  repeat (destruct F1 as [<-|F1]; [cbn in E; try discriminate E; cbn in F2; try discriminate F2|]); destruct F1.
Qed.
Print Assumptions C57_contained_refuted.

(** Whatever the request is, if it names anything at all in the way the operating system
    understands it, the answer is the content of that very file and the file is inside. *)
Theorem C57_existing_partial : forall o h p head rel l0 r l,
  real_place (os_fs o) (os_cwd o) -> root_at o (st_root h) l0 ->
  asks (st_prefix h) p rel -> leads_to o l0 rel l ->
  static_handle o h p head = Ret r -> rs_status r = 200 ->
  below l0 l /\ exists io b, os_fs o l = Some (EFile true io b) /\ rs_body r = if head then [] else b.
Proof.
  intros o h p head rel l0 r l Hc Hr Ha Hl E Hs.
  destruct (contained o Hc h p head rel r l0 Ha Hr E Hs) as (H & _). exact (H l Hl).
Qed.
Print Assumptions C57_existing_partial.

Example C57_existing_case : exists r, asks (st_prefix www) (str "/static/in") (str "in") /\
  leads_to an_os www_at (str "in") (loc ["srv"; "www"; "a.txt"]%string) /\
  static_handle an_os www (str "/static/in") false = Ret r /\ rs_status r = 200 /\ rs_body r = str "text".
Proof.
  eexists. split; [asks_plain|]. split; [found|]. split; [vm_compute; reflexivity|]. split; reflexivity.
Qed.

(** The operating system does not see what follows a NUL octet. *)
Example C57_nul_case : exists r, asks (st_prefix www) (str "/static/in" ++ [0] ++ str "/../x.html") (str "in" ++ [0] ++ str "/../x.html") /\
  leads_to an_os www_at (str "in" ++ [0] ++ str "/../x.html") (loc ["srv"; "www"; "a.txt"]%string) /\
  static_handle an_os www (str "/static/in" ++ [0] ++ str "/../x.html") false = Ret r /\ rs_status r = 200 /\ rs_body r = str "text".
Proof.
  eexists. split; [apply (asks_plain (str "/static") (str "in" ++ [0] ++ str "/../x.html")); [easy|no_zero]|]. split; [found|].
  split; [vm_compute; reflexivity|]. split; reflexivity.
Qed.

(** Without ".." in the request nothing outside is served, whatever links there are. *)
Theorem C57_no_dotdot_partial : forall o h p head rel l0 r,
  real_place (os_fs o) (os_cwd o) -> root_at o (st_root h) l0 ->
  asks (st_prefix h) p rel -> ~ In dotdot (elements rel) ->
  static_handle o h p head = Ret r -> rs_status r = 200 ->
  exists l io b, below l0 l /\ leads_to o l0 rel l /\
    os_fs o l = Some (EFile true io b) /\ rs_body r = if head then [] else b.
Proof.
  intros o h p head rel l0 r Hc Hr Ha Hd E Hs.
  destruct (contained o Hc h p head rel r l0 Ha Hr E Hs) as (H1 & H2 & _).
  destruct (H2 Hd) as [l Hl]. destruct (H1 l Hl) as (Hb & io & b & Hf & Hbody). exists l, io, b. auto.
Qed.
Print Assumptions C57_no_dotdot_partial.

Example C57_no_dotdot_case : asks (st_prefix www) (str "/static/link/passwd") (str "link/passwd") /\
  ~ In dotdot (elements (str "link/passwd")) /\
  leads_to an_os www_at (str "link/passwd") (loc ["etc"; "passwd"]%string) /\
  static_handle an_os www (str "/static/link/passwd") false = Ret (Response 403 [] []).
Proof.
  split; [asks_plain|]. split; [cbv; intuition discriminate|]. split; [found|]. vm_compute. reflexivity.
Qed.

(** Without symbolic links below the root nothing outside is served, whatever is asked. *)
Theorem C57_no_links_partial : forall o h p head rel l0 r,
  real_place (os_fs o) (os_cwd o) -> root_at o (st_root h) l0 ->
  (forall rest t, os_fs o (l0 ++ rest) <> Some (ELink t)) ->
  asks (st_prefix h) p rel -> static_handle o h p head = Ret r -> rs_status r = 200 ->
  exists l io b, below l0 l /\ os_fs o l = Some (EFile true io b) /\ rs_body r = if head then [] else b.
Proof.
  intros o h p head rel l0 r Hc Hr Hn Ha E Hs.
  destruct (contained o Hc h p head rel r l0 Ha Hr E Hs) as (_ & _ & H).
  destruct (H Hn) as (l & Hb & io & b & Hf & Hbody). exists l, io, b. auto.
Qed.
Print Assumptions C57_no_links_partial.

Definition plain_disk : filesystem := disk
  [([], EDir true); (loc ["srv"], EDir true); (loc ["etc"], EFile true true (str "root"));
   (loc ["srv"; "a.txt"], EFile true true (str "text"))]%string.
Example C57_no_links_case : let o := OS plain_disk [] 40 in let h := Static (str "/s") (str "/srv/") in
  root_at o (st_root h) (loc ["srv"]%string) /\
  (forall rest t, os_fs o (loc ["srv"]%string ++ rest) <> Some (ELink t)) /\
  asks (st_prefix h) (str "/s/none/../a.txt") (str "none/../a.txt") /\
  static_handle o h (str "/s/none/../a.txt") false = Ret (Response 200 [Hdr (str "content-type") (str "text/plain; charset=utf-8")] (str "text")) /\
  static_handle o h (str "/s/none/../../etc") false = Ret (Response 403 [] []) /\
  static_handle o h (str "/s//etc") false = Ret (Response 403 [] []).
Proof.
  cbv zeta. split; [|split; [|split; [|repeat split; vm_compute; reflexivity]]].
  - split; [easy|]. split; [no_zero|]. split; [now exists true|]. apply walk_resolves. reflexivity.
  - intros rest t. cbn [os_fs]. unfold plain_disk, disk. destruct (find _ _) as [x|] eqn:F; [|discriminate].
    apply find_some in F as [F _]. cbn [In] in F. now repeat (destruct F as [<-|F]).
  - asks_plain.
Qed.

(** ** C58 *)
Theorem C58_statuses_partial : forall o h p head rel l0 l,
  real_place (os_fs o) (os_cwd o) -> root_at o (st_root h) l0 ->
  asks (st_prefix h) p rel -> leads_to o l0 rel l ->
  (~ below l0 l -> static_handle o h p head = Ret (Response 403 [] [])) /\
  (below l0 l -> forall b, os_fs o l = Some (EFile true true b) ->
     exists hs, static_handle o h p head = Ret (Response 200 hs (if head then [] else b))) /\
  (below l0 l -> forall b, os_fs o l = Some (EFile true false b) ->
     static_handle o h p false = Ret (Response 500 [] [])) /\
  (below l0 l -> (forall io b, os_fs o l <> Some (EFile true io b)) ->
     static_handle o h p head = Ret (Response 404 [] [])).
Proof.
  intros o h p head rel l0 l Hc Hr Ha Hl. split; [|split; [|split]].
  - exact (found_outside o Hc h p head rel l0 l Ha Hr Hl).
  - intros Hb b Hf. destruct (found_inside o Hc h p head rel l0 l Ha Hr Hl Hb) as (r & E & R). rewrite Hf in R.
    rewrite E. destruct head; rewrite R; eauto.
  - intros Hb b Hf. destruct (found_inside o Hc h p false rel l0 l Ha Hr Hl Hb) as (r & E & R). rewrite Hf in R.
    now rewrite E, R.
  - intros Hb Hf. destruct (found_inside o Hc h p head rel l0 l Ha Hr Hl Hb) as (r & E & R). rewrite E.
    destruct (os_fs o l) as [[[] io b|?|?|]|] eqn:El; try now rewrite R. exfalso. now apply (Hf io b).
Qed.
Print Assumptions C58_statuses_partial.

Example C58_statuses_case :
  map (fun p => static_handle an_os www (str p) false)
      ["/static/a.txt"; "/static"; "/static/link/passwd"; "/static/bad"; "/static/key"; "/static/link/../a.txt"]%string =
  map Ret [Response 200 [Hdr (str "content-type") (str "text/plain; charset=utf-8")] (str "text");
           Response 200 [Hdr (str "content-type") (str "text/html; charset=utf-8")] (str "hello");
           Response 403 [] []; Response 500 [] []; Response 404 [] []; Response 403 [] []].
Proof. vm_compute. reflexivity. Qed.
Example C58_statuses_case_link : leads_to an_os www_at (str "link/passwd") (loc ["etc"; "passwd"]%string) /\
  ~ below www_at (loc ["etc"; "passwd"]%string).
Proof. split; [found|]. intros [rest E]. discriminate E. Qed.

(** Requests that lead nowhere. *)
Theorem C58_missing_partial : forall o h p head rel l0 r,
  real_place (os_fs o) (os_cwd o) -> root_at o (st_root h) l0 ->
  asks (st_prefix h) p rel -> ~ In dotdot (elements rel) -> (forall l, ~ leads_to o l0 rel l) ->
  static_handle o h p head = Ret r -> r = Response 403 [] [] \/ r = Response 404 [] [].
Proof. intros o h p head rel l0 r Hc Hr Ha Hd Hn. exact (missing_answer o Hc h p head rel l0 r Ha Hr Hd Hn). Qed.
Print Assumptions C58_missing_partial.

Example C58_missing_case : (forall l, ~ leads_to an_os www_at (str "none") l) /\
  static_handle an_os www (str "/static/none") false = Ret (Response 404 [] []).
Proof. split; [|vm_compute; reflexivity]. unfold leads_to. intros l H. apply walk_resolves in H. discriminate H. Qed.

(** Without a root directory. *)
Theorem C58_no_root : forall o h p head,
  real_place (os_fs o) (os_cwd o) -> ~ In 0 (st_root h) -> static_matches h p = true ->
  (forall l0, ~ root_at o (st_root h) l0) -> static_handle o h p head = Ret (Response 403 [] []).
Proof.
  intros o h p head Hc Hz Hm Hn. destruct (asks_some h p Hm) as [rel Ha]. exact (no_root o Hc h p head rel Hz Ha Hn).
Qed.
Print Assumptions C58_no_root.

Example C58_no_root_case : let h := Static (str "/static") (str "/srv/none") in
  (forall l0, ~ root_at an_os (st_root h) l0) /\ static_handle an_os h (str "/static/a.txt") false = Ret (Response 403 [] []).
Proof.
  split; [|vm_compute; reflexivity]. intros l0 (_ & _ & _ & H). apply walk_resolves in H. discriminate H.
Qed.

(** Every request with the prefix is answered, and errors carry nothing. *)
Theorem C58_no_content : forall o h p head, static_matches h p = true ->
  exists r, static_handle o h p head = Ret r /\
    (rs_status r = 200 \/ r = Response 403 [] [] \/ r = Response 404 [] [] \/ r = Response 500 [] []).
Proof.
  intros o h p head Hm. destruct (asks_some h p Hm) as [rel Ha].
  pose proof (handle_eq o h p head rel Ha) as E. eexists. split; [exact E|]. exact (handle_statuses o h p head _ E).
Qed.
Print Assumptions C58_no_content.

(** The witness of C57: the path leads nowhere and is answered with content. *)
Theorem C58_statuses_refuted : exists o h l0 p rel r,
  real_place (os_fs o) (os_cwd o) /\ root_at o (st_root h) l0 /\ asks (st_prefix h) p rel /\
  (forall l, ~ leads_to o l0 rel l) /\ static_handle o h p false = Ret r /\ rs_status r = 200 /\ rs_body r <> [].
Proof.
  exists an_os, www, www_at, (str "/static/none/../link/passwd"), (str "none/../link/passwd"), (Response 200 [Hdr (str "content-type") octet_stream] (str "root")).
  split; [exact an_os_cwd|]. split; [exact www_root|]. split; [asks_plain|]. split.
  - unfold leads_to. intros l H. apply walk_resolves in H. discriminate H.
  - split; [vm_compute; reflexivity|]. split; [reflexivity|easy].
Qed.
Print Assumptions C58_statuses_refuted.

(** ** C59.  For a readable file that is not empty, on the wire. *)
Theorem C59_head_partial : forall o h p rel l0 l b rg rh fg fh,
  real_place (os_fs o) (os_cwd o) -> root_at o (st_root h) l0 ->
  asks (st_prefix h) p rel -> leads_to o l0 rel l -> os_fs o l = Some (EFile true true b) -> b <> [] ->
  static_handle o h p false = Ret rg -> static_handle o h p true = Ret rh ->
  response_fields rg fg -> response_fields rh fh ->
  rs_status rh = rs_status rg /\ rs_body rh = [] /\ Permutation fh fg.
Proof.
  intros o h p rel l0 l b rg rh fg fh Hc Hr Ha Hl Hf Hb. exact (head_mirrors o Hc h p rel l0 l b rg rh fg fh Ha Hr Hl Hf Hb).
Qed.
Print Assumptions C59_head_partial.

Example C59_head_case :
  leads_to an_os www_at (str "a.txt") (loc ["srv"; "www"; "a.txt"]%string) /\
  static_handle an_os www (str "/static/a.txt") true =
    Ret (Response 200 [Hdr (str "content-length") (str "4"); Hdr (str "content-type") (str "text/plain; charset=utf-8")] []).
Proof. split; [found|vm_compute; reflexivity]. Qed.

(** A HEAD request gets the size of the file. *)
Theorem C59_length : forall o h p rel l0 l io b,
  real_place (os_fs o) (os_cwd o) -> root_at o (st_root h) l0 ->
  asks (st_prefix h) p rel -> leads_to o l0 rel l -> below l0 l -> os_fs o l = Some (EFile true io b) ->
  exists r n, static_handle o h p true = Ret r /\ rs_status r = 200 /\ rs_body r = [] /\
    first_field (rs_headers r) (str "content-length") n /\ decimal n (lenZ b).
Proof.
  intros o h p rel l0 l io b Hc Hr Ha Hl Hb Hf. destruct (found_inside o Hc h p true rel l0 l Ha Hr Hl Hb) as (r & E & R).
  rewrite Hf in R. subst r. eexists _, (to_string (lenZ b)). split; [exact E|]. split; [reflexivity|]. split; [reflexivity|]. split.
  - exists [], [Hdr (str "content-type") (get_mime_type (path_string l))]. split; [reflexivity|constructor].
  - apply to_string_spec. unfold lenZ. lia.
Qed.
Print Assumptions C59_length.

Example C59_length_case : leads_to an_os www_at (str "empty") (loc ["srv"; "www"; "empty"]%string) /\
  below www_at (loc ["srv"; "www"; "empty"]%string) /\
  exists hs, static_handle an_os www (str "/static/empty") true = Ret (Response 200 (Hdr (str "content-length") (str "0") :: hs) []).
Proof. split; [found|]. split; [now exists [str "empty"]|]. eexists. vm_compute. reflexivity. Qed.

(** For an empty file only HEAD gets a content-length; when reading fails only GET gets 500. *)
Theorem C59_head_refuted : exists o h,
  (exists p rg rh, static_matches h p = true /\ static_handle o h p false = Ret rg /\ static_handle o h p true = Ret rh /\
     forall fg fh, response_fields rg fg -> response_fields rh fh -> ~ Permutation fh fg) /\
  (exists p rg rh, static_matches h p = true /\ static_handle o h p false = Ret rg /\ static_handle o h p true = Ret rh /\
     rs_status rg = 500 /\ rs_status rh = 200).
Proof.
  exists an_os, www. split.
  - exists (str "/static/empty"). eexists _, _. split; [reflexivity|]. split; [vm_compute; reflexivity|]. split; [vm_compute; reflexivity|].
    intros fg fh (sg & lg & -> & _ & Lg & _) (sh & lh & -> & _ & Lh & _) HP. cbn [rs_body rs_headers] in *.
    rewrite (Lg eq_refl), (Lh eq_refl) in HP. apply Permutation_length in HP. discriminate HP.
  - exists (str "/static/bad"). eexists _, _. split; [reflexivity|]. split; [vm_compute; reflexivity|]. split; [vm_compute; reflexivity|].
    split; reflexivity.
Qed.
Print Assumptions C59_head_refuted.

(** ** C60 *)
Theorem C60_query_partial : forall o h p head query, static_matches h p = true ->
  p <> st_prefix h -> p <> st_prefix h ++ [SLASH] ->
  static_handle o h (p ++ str "?" ++ query) head = static_handle o h p head.
Proof.
  intros o h p head query Hm H1 H2. destruct (asks_some h p Hm) as [rel Ha].
  exact (query_ignored o h p head rel query Ha H1 H2).
Qed.
Print Assumptions C60_query_partial.

Example C60_query_case : static_handle an_os www (str "/static/a.txt?v=1&x=../..") false =
  Ret (Response 200 [Hdr (str "content-type") (str "text/plain; charset=utf-8")] (str "text")).
Proof. vm_compute. reflexivity. Qed.

(** The index page with a query string is never found. *)
Theorem C60_query_refuted : forall o h p head query l0,
  real_place (os_fs o) (os_cwd o) -> root_at o (st_root h) l0 -> p = st_prefix h \/ p = st_prefix h ++ [SLASH] ->
  static_handle o h (p ++ str "?" ++ query) head = Ret (Response 404 [] []).
Proof. intros o h p head query l0 Hc Hr Hp. exact (query_index o Hc h p head query l0 Hp Hr). Qed.
Print Assumptions C60_query_refuted.

Example C60_query_refuted_case :
  static_handle an_os www (str "/static/") false = Ret (Response 200 [Hdr (str "content-type") (str "text/html; charset=utf-8")] (str "hello")) /\
  static_handle an_os www (str "/static/?v=1") false = Ret (Response 404 [] []) /\
  root_at an_os (st_root www) www_at.
Proof. split; [vm_compute; reflexivity|]. split; [vm_compute; reflexivity|exact www_root]. Qed.

(** ** C61 *)
Theorem C61_content_type : forall o h p head rel l0 (d : location) (n : bytes) io b t r,
  real_place (os_fs o) (os_cwd o) -> root_at o (st_root h) l0 ->
  asks (st_prefix h) p rel -> leads_to o l0 rel (d ++ [n]) ->
  os_fs o (d ++ [n]) = Some (EFile true io b) -> type_of_name n t ->
  static_handle o h p head = Ret r -> rs_status r = 200 -> first_field (rs_headers r) (str "content-type") t.
Proof.
  intros o h p head rel l0 d n io b t r Hc Hr Ha Hl Hf Ht E Hs.
  destruct (contained o Hc h p head rel r l0 Ha Hr E Hs) as (H & _). destruct (H _ Hl) as [Hb _].
  assert (Hn : ~ In SLASH n).
  { destruct (root_status o Hc _ l0 Hr) as (_ & _ & _ & _ & Hl0). apply (leads_real o l0 rel _ Hl0) in Hl.
    now destruct (Hl d n [] eq_refl) as (_ & _ & _ & K & _). }
  destruct (found_inside o Hc h p head rel l0 _ Ha Hr Hl Hb) as (r' & E' & R). rewrite E in E'. injection E' as <-.
  rewrite Hf in R. pose proof (mime_name d n t Hn Ht : get_mime_type (path_string (d ++ [n])) = t) as M. unfold path, location, bytes in *. destruct head; [|destruct io].
  - rewrite R, M. exists [Hdr (str "content-length") (to_string (lenZ b))], []. split; [reflexivity|]. repeat constructor. discriminate.
  - rewrite R, M. exists [], []. split; [reflexivity|constructor].
  - rewrite R in Hs. discriminate Hs.
Qed.
Print Assumptions C61_content_type.

(** Every name has exactly one type. *)
Theorem C61_function : forall n, exists t, type_of_name n t /\ forall t', type_of_name n t' -> t' = t.
Proof.
  intros n.
  assert (D : exists t, type_of_name n t).
  { destruct (last_dot n) as [Hn|(a & e & E & He)].
    - eexists. apply type_unknown. intros a e t E. exfalso. apply Hn. rewrite E. apply in_or_app. right. now left.
    - destruct (find (fun x => bytes_eqb (fst x) e) known_types) as [[e' t]|] eqn:F.
      + apply find_some in F as [F1 F2]. cbn [fst] in F2. apply bytes_eqb_eq in F2. subst e'. exists t. eapply type_known; eauto.
      + eexists. apply type_unknown. intros a' e' t E' He' Hin.
        assert (e' = e) by (subst n; exact (eq_sym (dot_last_unique a e a' e' E' He He'))). subst e'.
        apply (find_none _ _ F) in Hin. cbn [fst] in Hin. now apply bytes_eqb_neq in Hin. }
  destruct D as [t D]. exists t. split; [exact D|]. intros t' D'.
  destruct D as [a e t E He Hin|Hu], D' as [a' e' t' E' He' Hin'|Hu']; try reflexivity.
  - assert (e' = e) by (subst n; exact (eq_sym (dot_last_unique a e a' e' E' He He'))). subst e'. eapply known_unique; eauto.
  - exfalso. now apply (Hu' a e t).
  - exfalso. now apply (Hu a' e' t').
Qed.
Print Assumptions C61_function.

Example C61_case : type_of_name (str "a.tar.html") (str "text/html; charset=utf-8") /\
  type_of_name (str "Makefile") (str "application/octet-stream").
Proof.
  split.
  - apply (type_known _ (str "a.tar") (str "html")); [reflexivity|no_zero|now left].
  - apply type_unknown. intros a e t E. exfalso.
    assert (K : In DOT (str "Makefile")) by (rewrite E; apply in_or_app; right; now left). revert K. no_zero.
Qed.
Example C61_case_served : leads_to an_os www_at (str "a.txt") (www_at ++ [str "a.txt"]) /\ type_of_name (str "a.txt") (str "text/plain; charset=utf-8").
Proof.
  split; [found|]. apply (type_known _ (str "a") (str "txt")); [reflexivity|no_zero|cbn; tauto].
Qed.
