(** C114: static files that change while a request is handled. *)
From Verif Require Import Base BaseLemmas Http FileSys Files SpecFiles SpecConn ConnTerm FilesProofs FilesServe FilesRace SpecRace RaceProofs PropFiles.

(** ** Examples *)
Definition with_entry (fs : filesystem) (l : location) (e : option entry) : filesystem :=
  fun m => if locs_eqb m l then e else fs m.
(** The place [l] holds [e] before call [n] and [e'] from then on. *)
Definition changing (l : location) (e e' : option entry) (n : nat) : nat -> os :=
  fun k => OS (with_entry a_disk l (if Nat.ltb k n then e else e')) [] 40.
Definition keeps (b : bytes) : bytes := b.
Definition no_odd (l : location) : option (Z * option bytes) := None.
Definition a_txt : location := loc ["srv"; "www"; "a.txt"]%string.

Lemma changing_settled l e e' n later odd memory :
  (forall x, x = e \/ x = e' -> root_at (OS (with_entry a_disk l x) [] 40) (st_root www) www_at) ->
  settled (History (changing l e e' n) later odd memory) (st_root www) www_at.
Proof.
  intros K k. cbn [h_os]. unfold changing. destruct (Nat.ltb k n); (split; [exact (real_nil _)|]; split; [apply K; auto|reflexivity]).
Qed.
Ltac root_there := split; [easy|]; split; [no_zero|]; split; [exists true; reflexivity|apply walk_resolves; reflexivity].
Ltac by_changing := apply changing_settled; intros x [-> | ->]; root_there.

(** ** Without changes, it is what Files.v says. *)
Theorem C114_unchanged : forall H o h p head, (forall k, h_os H k = o) -> (forall b, h_later H b = b) ->
  static_handle_in H h p head = static_handle o h p head.
Proof. intros H o h p head Ho Hl. exact (handle_still H o Ho Hl h p head). Qed.
Print Assumptions C114_unchanged.

(** Whatever changes, a path is made out or refused, or the exception is one of the file
    system's, which is caught. *)
Lemma exists_defined o s : (exists b, fs_exists o s = Ret b) \/ fs_exists o s = Throw.
Proof. unfold fs_exists, fs_status. destruct (resolve o s) as [l|[]]; cbn [obind]; eauto. Qed.
Lemma canonical_defined o p : (exists q, fs_canonical o p = Ret q) \/ fs_canonical o p = Throw.
Proof. unfold fs_canonical. destruct (resolve o (path_string p)); eauto. Qed.
Lemma leading_defined H : forall p k r, (exists x, leading_in H k r p = Ret x) \/ leading_in H k r p = Throw.
Proof.
  induction p as [|c p IH]; intros k r; cbn [leading_in]; [eauto|].
  destruct (exists_defined (h_os H k) (path_string (r ++ [c]))) as [[b ->]| ->]; cbn [obind]; [|auto]. destruct b; [apply IH|eauto].
Qed.
Lemma weakly_defined H k p : (exists x, weakly_canonical_in H k p = Ret x) \/ weakly_canonical_in H k p = Throw.
Proof.
  unfold weakly_canonical_in. destruct (exists_defined (h_os H k) (path_string p)) as [[b ->]| ->]; cbn [obind]; [|auto]. destruct b.
  - destruct (canonical_defined (h_os H (S k)) p) as [[q ->]| ->]; cbn [obind]; eauto.
  - destruct (leading_defined H p (S k) []) as [[[[r rest] j] ->]| ->]; cbn [obind]; [|auto].
    destruct (canonical_defined (h_os H j) r) as [[q ->]| ->]; cbn [obind]; eauto.
Qed.
Theorem C114_defined : forall H base requested,
  (exists r, sanitize_in H base requested = Ret r) \/ sanitize_in H base requested = Throw.
Proof.
  intros H base requested. unfold sanitize_in. destruct base as [|c base]; cbn [fs_absolute obind]; [auto|].
  set (a := if absolute _ then _ else _). destruct (exists_defined (h_os H 1) (path_string a)) as [[b ->]| ->]; cbn [obind]; [|auto]. destruct b; [|eauto].
  unfold fs_status. destruct (resolve (h_os H 2) (path_string a)) as [l|[]]; cbn [obind]; eauto.
  destruct (os_fs (h_os H 2) l) as [[]|]; eauto.
  destruct (weakly_defined H 3 a) as [[[q k] ->]| ->]; cbn [obind]; [|auto].
  destruct (weakly_defined H k (fs_append q requested)) as [[[f k'] ->]| ->]; cbn [obind]; eauto.
Qed.
Print Assumptions C114_defined.

Example C114_unchanged_case : static_handle_in (History (fun _ => an_os) keeps no_odd 0) www (str "/static/in") false =
  Ret (Response 200 [Hdr (str "content-type") (str "text/plain; charset=utf-8")] (str "text")).
Proof. vm_compute. reflexivity. Qed.

(** ** Whatever changes, an answer has no content, or is made from one regular file, unless a
    regular file makes place for something else between the check and the opening. *)
Theorem C114_answers : forall H h p head, static_matches h p = true ->
  (exists r, static_handle_in H h p head = Ret r /\
    (r = Response 403 [] [] \/ r = Response 404 [] [] \/ r = Response 500 [] [] \/
     rs_status r = 200 /\ exists l, taken_from H head l r)) \/
  (head = false /\ exists s k l x, is_file (entry_at (h_os H k) s) /\
    resolve (h_os H (S (S k))) s = At l /\ is_odd (os_fs (h_os H (S (S k))) l) /\ h_odd H l = Some x).
Proof.
  intros H h p head Hm. destruct (asks_some h p Hm) as [rel Ha]. rewrite (handle_in_eq H h p head rel Ha).
  destruct (sanitize_path_in H (st_root h) rel) as [[s k]|]; [|left; eauto].
  destruct (response_made H k s head) as [(r & E & D)|(E & F & l & x & K)].
  - left. exists r. split; [exact E|]. destruct D as [D|[D|(D & _ & m & l & _ & _ & _ & T)]]; eauto 7.
  - right. split; [exact E|]. exists s, k, l, x. auto.
Qed.
Print Assumptions C114_answers.

(** A file that grows while it is read is cut off; one that shrinks is answered with 500. *)
Example C114_answers_case :
  map (fun f => static_handle_in (History (fun _ => an_os) f no_odd 0) www (str "/static/a.txt") false)
      [fun b => b ++ str "more"; fun b => tl b; fun _ => str "TEXT and more"] =
  [Ret (Response 200 [Hdr (str "content-type") (str "text/plain; charset=utf-8")] (str "text"));
   Ret (Response 500 [] []);
   Ret (Response 200 [Hdr (str "content-type") (str "text/plain; charset=utf-8")] (str "TEXT"))].
Proof. vm_compute. reflexivity. Qed.
(** It vanishes between two calls. *)
Example C114_answers_case_vanishes :
  map (fun n => static_handle_in (History (changing a_txt (a_disk a_txt) None n) keeps no_odd 0) www (str "/static/a.txt") false) [6; 7; 8; 9; 10]%nat =
  [Ret (Response 403 [] []); Ret (Response 404 [] []); Ret (Response 404 [] []); Ret (Response 500 [] []);
   Ret (Response 200 [Hdr (str "content-type") (str "text/plain; charset=utf-8")] (str "text"))].
Proof. vm_compute. reflexivity. Qed.
(** A directory takes its place: on some file systems the end of a directory is at the largest
    offset there is, and the vector cannot be allocated; a device gives what it gives. *)
Example C114_answers_case_odd :
  map (fun x => static_handle_in (History (changing a_txt (a_disk a_txt) (Some (EDir true)) 9) keeps (fun _ => x) (2 ^ 47)) www (str "/static/a.txt") false)
      [Some (2 ^ 63 - 1, None); Some (3, Some (str "tape")); Some (4096, None); None] =
  [Throw; Ret (Response 200 [Hdr (str "content-type") (str "text/plain; charset=utf-8")] (str "tap")); Ret (Response 500 [] []); Ret (Response 500 [] [])].
Proof. vm_compute. reflexivity. Qed.

(** ** While the path leads to the same place, whatever else changes. *)
Theorem C114_same_place_partial : forall H h p head rel l0 l,
  settled H (st_root h) l0 -> asks (st_prefix h) p rel -> (forall k, leads_to (h_os H k) l0 rel l) ->
  (forall k, ~ is_odd (os_fs (h_os H k) l)) ->
  (~ below l0 l -> static_handle_in H h p head = Ret (Response 403 [] [])) /\
  (below l0 l -> exists r, static_handle_in H h p head = Ret r /\
     (r = Response 404 [] [] \/ r = Response 500 [] [] \/ rs_status r = 200 /\ taken_from H head l r)) /\
  (below l0 l -> (forall k, exists b, os_fs (h_os H k) l = Some (EFile true true b)) -> (forall b, lenZ b <= lenZ (h_later H b)) ->
   exists r, static_handle_in H h p head = Ret r /\ rs_status r = 200 /\ taken_from H head l r).
Proof.
  intros H h p head rel l0 l HS Ha Hl Ho. rewrite (stays_in H h l0 HS p head rel l Ha Hl).
  assert (Hres : forall k, resolve (h_os H k) (path_string l) = At l) by (intros k; exact (stays_found H h l0 HS rel l k (Hl k))).
  destruct (within l0 l) eqn:Ei.
  - apply within_below in Ei. split; [easy|].
    assert (D : exists r, file_response_in H 7 (path_string l) head = Ret r /\
      (r = Response 404 [] [] \/ r = Response 500 [] [] \/ rs_status r = 200 /\ taken_from H head l r)).
    { destruct (response_made H 7 (path_string l) head) as [(r & E & D)|(_ & _ & m & x & E & O & _)].
      - exists r. split; [exact E|]. destruct D as [D|[D|(D & _ & m & l' & _ & E' & _ & T)]]; auto.
        rewrite Hres in E'. injection E' as <-. auto.
      - rewrite Hres in E. injection E as <-. now apply Ho in O. }
    split; [auto|]. intros _ Hf Hg. destruct D as (r & E & D). exists r. split; [exact E|].
    destruct D as [D|[D|D]]; [exfalso|exfalso|exact D]; revert E; subst r; unfold file_response_in, is_readable_in, entry_at; rewrite !Hres;
      destruct (Hf 7%nat) as [b7 ->]; destruct (Hf 8%nat) as [b8 ->]; (destruct head;
      [unfold head_response_in, get_file_size_in, entry_at; rewrite !Hres; destruct (Hf 9%nat) as [b9 ->]; destruct (Hf 10%nat) as [b10 ->]; destruct (Hf 11%nat) as [b11 ->]; intros E; discriminate E
      |unfold get_response_in, read_file_in; rewrite Hres; destruct (Hf 9%nat) as [b9 ->]; cbv zeta;
       replace (lenZ (h_later H b9) <? lenZ b9) with false by (symmetry; apply Z.ltb_ge, Hg); cbn [obind]; intros E; discriminate E]).
  - assert (Hn : ~ below l0 l) by (intros K; apply within_below in K; congruence). split; [auto|]. split; [easy|intros K; easy].
Qed.
Print Assumptions C114_same_place_partial.

Example C114_same_place_case :
  let H := History (changing a_txt (a_disk a_txt) (Some (EFile true true (str "TEXTS"))) 8) (fun b => b ++ b) no_odd 0 in
  settled H (st_root www) www_at /\ asks (st_prefix www) (str "/static/in") (str "in") /\
  (forall k, leads_to (h_os H k) www_at (str "in") a_txt) /\ (forall k, ~ is_odd (os_fs (h_os H k) a_txt)) /\ below www_at a_txt /\
  (forall k, exists b, os_fs (h_os H k) a_txt = Some (EFile true true b)) /\ (forall b, lenZ b <= lenZ (h_later H b)) /\
  static_handle_in H www (str "/static/in") false = Ret (Response 200 [Hdr (str "content-type") (str "text/plain; charset=utf-8")] (str "TEXTS")).
Proof.
  cbv zeta. split; [by_changing|]. split; [asks_plain|].
  split; [intros k; cbn [h_os]; unfold changing; destruct (Nat.ltb k 8); found|].
  split; [intros k; cbn [h_os]; unfold changing; destruct (Nat.ltb k 8); intros [[x K]|K]; discriminate K|].
  split; [now exists [str "a.txt"]|].
  split; [intros k; cbn [h_os]; unfold changing; destruct (Nat.ltb k 8); eexists; reflexivity|].
  split; [intros b; cbn [h_later]; rewrite lenZ_app; unfold lenZ; lia|vm_compute; reflexivity].
Qed.

(** ** Without links below the root, whatever else changes. *)
Theorem C114_no_links_partial : forall H h p head rel l0 r,
  settled H (st_root h) l0 -> (forall l, h_odd H l = None) ->
  (forall k rest t, os_fs (h_os H k) (l0 ++ rest) <> Some (ELink t)) ->
  asks (st_prefix h) p rel -> static_handle_in H h p head = Ret r -> rs_status r = 200 ->
  exists l, below l0 l /\ taken_from H head l r.
Proof. intros H h p head rel l0 r HS Ho Hn Ha. exact (no_links_in H h l0 HS p head rel r Ho Hn Ha). Qed.
Print Assumptions C114_no_links_partial.

Definition plain_os (b : bool) : os := OS (with_entry plain_disk (loc ["srv"; "new"]%string) (if b then Some (EFile true true (str "new")) else None)) [] 40.
Example C114_no_links_case : let H := History (fun k => plain_os (Nat.ltb 7 k)) keeps no_odd 0 in let h := Static (str "/s") (str "/srv/") in
  settled H (st_root h) (loc ["srv"]%string) /\
  (forall k rest t, os_fs (h_os H k) (loc ["srv"]%string ++ rest) <> Some (ELink t)) /\
  asks (st_prefix h) (str "/s/none/../new") (str "none/../new") /\
  static_handle_in H h (str "/s/none/../new") false = Ret (Response 200 [Hdr (str "content-type") (str "application/octet-stream")] (str "new")).
Proof.
  cbv zeta. split; [|split; [|split; [asks_plain|vm_compute; reflexivity]]].
  - intros k. cbn [h_os]. destruct (Nat.ltb 7 k); (split; [exact (real_nil _)|]; split; [root_there|reflexivity]).
  - intros k rest t. cbn [h_os]. unfold plain_os, with_entry. cbn [os_fs]. destruct (locs_eqb _ _); [destruct (Nat.ltb 7 k); discriminate|].
    unfold plain_disk, disk. destruct (find _ _) as [x|] eqn:F; [|discriminate].
    apply find_some in F as [F _]. cbn [In] in F. now repeat (destruct F as [<-|F]).
Qed.

(** ** Without ".." in the request, while files change and vanish but none appears. *)
Theorem C114_fading_partial : forall H h p head rel l0 r,
  settled H (st_root h) l0 -> (forall i j, (i <= j)%nat -> fades (h_os H i) (h_os H j)) ->
  asks (st_prefix h) p rel -> ~ In dotdot (elements rel) ->
  static_handle_in H h p head = Ret r -> rs_status r = 200 ->
  exists k l, below l0 l /\ leads_to (h_os H k) l0 rel l /\ taken_from H head l r.
Proof. intros H h p head rel l0 r HS HF Ha Hd. exact (fading_in H h l0 HS HF p head rel r Ha Hd). Qed.
Print Assumptions C114_fading_partial.

Lemma fades_refl o : fades o o.
Proof. split; [reflexivity|]. auto. Qed.
Lemma changing_fades l e e' n : is_file e -> e' = None \/ is_file e' ->
  forall i j, (i <= j)%nat -> fades (changing l e e' n i) (changing l e e' n j).
Proof.
  intros He He' i j Hij. unfold changing. destruct (Nat.ltb_spec i n), (Nat.ltb_spec j n); try lia; try apply fades_refl.
  split; [reflexivity|]. intros m. cbn [os_fs]. unfold with_entry. destruct (locs_eqb m l); auto.
Qed.
Example C114_fading_case :
  let H := History (changing a_txt (a_disk a_txt) (Some (EFile true true (str "TEXTS"))) 8) keeps no_odd 0 in
  settled H (st_root www) www_at /\ (forall i j, (i <= j)%nat -> fades (h_os H i) (h_os H j)) /\
  asks (st_prefix www) (str "/static/in") (str "in") /\ ~ In dotdot (elements (str "in")) /\
  static_handle_in H www (str "/static/in") true =
    Ret (Response 200 [Hdr (str "content-length") (str "5"); Hdr (str "content-type") (str "text/plain; charset=utf-8")] []).
Proof.
  cbv zeta. split; [by_changing|]. split; [apply changing_fades; [|right]; repeat eexists|]. split; [asks_plain|].
  split; [no_zero|vm_compute; reflexivity].
Qed.

(** ** False in general, even if only files appear: a link below the root leads to a missing file
    outside.  The check finds nothing there and takes the link for a missing file of the root;
    the file appears before it is opened.  At no moment would the request have been answered
    with content without the change. *)
Definition outward (k : nat) : os :=
  OS (with_entry (with_entry a_disk (loc ["srv"; "www"; "out"]%string) (Some (ELink (str "/etc/new"))))
        (loc ["etc"; "new"]%string) (if Nat.ltb k 10 then None else Some (EFile true true (str "secret!")))) [] 40.
Theorem C114_contained_refuted : exists H h l0 p rel r,
  settled H (st_root h) l0 /\ (forall i j, only_files (h_os H i) (h_os H j)) /\
  asks (st_prefix h) p rel /\ ~ In dotdot (elements rel) /\
  (forall k, exists s, static_handle (h_os H k) h p false = Ret (Response s [] []) /\ (s = 403 \/ s = 404)) /\
  static_handle_in H h p false = Ret r /\ rs_status r = 200 /\ rs_body r <> [] /\
  forall l, taken_from H false l r -> ~ below l0 l.
Proof.
  exists (History outward keeps no_odd 0), www, www_at, (str "/static/out"), (str "out").
  eexists. split.
  { intros k. cbn [h_os]. unfold outward. destruct (Nat.ltb k 10); (split; [exact (real_nil _)|]; split; [root_there|reflexivity]). }
  split.
  { intros i j. cbn [h_os]. unfold outward. split; [reflexivity|]. split; [reflexivity|]. intros l. cbn [os_fs]. unfold with_entry.
    destruct (locs_eqb l (loc ["etc"; "new"]%string)); [|auto]. right.
    split; destruct (Nat.ltb _ 10); ((now left) || (right; repeat eexists)). }
  split; [asks_plain|]. split; [no_zero|]. split.
  { intros k. cbn [h_os]. unfold outward. destruct (Nat.ltb k 10); [exists 404|exists 403]; (split; [vm_compute; reflexivity|auto]). }
  split; [vm_compute; reflexivity|]. split; [reflexivity|]. split; [easy|].
  intros l (k & b & more & E & _ & L) [rest ->]. cbn [h_os h_later rs_body] in *. unfold keeps in L. subst b.
  unfold outward in E. cbn [os_fs] in E. unfold with_entry in E. change (locs_eqb (www_at ++ rest) (loc ["etc"; "new"]%string)) with false in E. cbv iota in E.
  destruct (locs_eqb (www_at ++ rest) (loc ["srv"; "www"; "out"]%string)); [discriminate|].
  unfold a_disk, disk in E. destruct (find _ _) as [x|] eqn:F; [|discriminate]. apply find_some in F as [F1 _].
  injection E as E. cbn [In] in F1.
  repeat (destruct F1 as [<-|F1]; [discriminate E|]). destruct F1.
Qed.
Print Assumptions C114_contained_refuted.
