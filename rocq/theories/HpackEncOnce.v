(** Responses in which names outside the static table have one value each: a client can
    read them exactly if every field that is sent again is at hand. *)
From Verif Require Import Base BaseLemmas SpecTable DynTable DynTableProofs SpecHpack HpackEnc SpecHpackEnc HpackEncProofs
  SpecHpackKept HpackEncLost HpackEncKept.

Definition hdr_dec (x y : header) : {x = y} + {x <> y}.
Proof. decide equality; apply (list_eq_dec Z.eq_dec). Defined.

Lemma in_firstn {A} (x : A) n l : In x (firstn n l) <-> exists i, (i < n)%nat /\ nth_error l i = Some x.
Proof.
  revert l. induction n as [|n IH]; intros [|y l]; cbn [firstn In].
  - split; [easy|]. intros (i & Hi & _). lia.
  - split; [easy|]. intros (i & Hi & _). lia.
  - split; [easy|]. intros ([|i] & _ & E); discriminate E.
  - rewrite IH. split.
    + intros [->|(i & Hi & E)]; [exists O|exists (S i)]; split; auto; lia.
    + intros ([|i] & Hi & E); [left; now injection E|right]. exists i. split; [lia|exact E].
Qed.

Section Once.
  Variable D : list header.
  Hypothesis H1 : one_value D.

  Definition settled (l : list header) : Prop := NoDup l /\ incl l D /\ (forall x, In x l -> ~ In x rfc_static).
  Lemma settled_field M l h : settled l -> In h D -> settled (after_field M l h).
  Proof.
    intros (Hn & Hi & Hs) Hh. destruct (after_field_inv M D l h Hn Hi Hh) as [A B]. split; [exact A|]. split; [exact B|].
    unfold after_field. destruct (in_tables l h) eqn:E; [exact Hs|]. intros x Hx%fit_incl. destruct Hx as [<-|Hx]; [|auto].
    intros Q. enough (in_tables l h = true) by congruence. apply in_tables_true. now left.
  Qed.
  Lemma settled_fields M hs : forall l, settled l -> incl hs D -> settled (after_fields M l hs).
  Proof.
    induction hs as [|h hs IH]; intros l Hl Hi; [exact Hl|]. cbn. apply IH; [|intros x Hx; apply Hi; now right].
    apply settled_field; [exact Hl|]. apply Hi. now left.
  Qed.

  Lemma new_field l h : settled l -> In h D -> ~ In h l -> static_name (h_name h) \/ (forall x, In x l -> h_name x <> h_name h).
  Proof.
    intros (_ & Hi & _) Hh N. destruct (static_name_dec (h_name h)) as [S|S]; [now left|right]. intros x Hx Ex. apply N.
    replace h with x; [exact Hx|]. apply H1; auto. now rewrite Ex.
  Qed.
  Lemma reach_or_lost l h : settled l -> In h D -> reachable_field l h \/ lost_field l h.
  Proof.
    intros Hl Hh. destruct (in_dec hdr_dec h rfc_static) as [S|S]; [left; now left|].
    destruct (in_dec hdr_dec h l) as [I|I].
    - destruct (in_dec hdr_dec h (firstn 65 l)) as [F|F].
      + left. right. left. apply in_firstn in F as (i & Hi & E). exists i. split; [lia|exact E].
      + right. split; [exact S|]. left. apply In_nth_error in I as (i & Ei). exists i. split.
        * split; [exists h; auto|]. intros j x Hj Ex <-. destruct Hl as (Hn & _).
          assert (j = i); [|lia]. apply (proj1 (NoDup_nth_error l) Hn); [apply nth_error_Some; congruence|congruence].
        * destruct (le_lt_dec 65 i) as [L|L]; [exact L|]. exfalso. apply F. apply in_firstn. exists i. auto.
    - left. right. right. split; [exact I|]. destruct (new_field l h Hl Hh I); auto.
  Qed.
  Lemma reach_kept_hand m l h : settled l -> In h D -> reachable_field l h /\ kept_field m l h <-> at_hand m l h.
  Proof.
    intros Hl Hh. pose proof Hl as (_ & _ & Hs). split.
    - intros [R K] I. specialize (Hs _ I). split.
      + destruct R as [R|[(i & Hi & E)|[R _]]]; [easy| |easy]. apply in_firstn. exists i. split; [lia|exact E].
      + destruct K as [K|[K|[K _]]]; easy.
    - intros A. destruct (in_dec hdr_dec h l) as [I|I].
      + destruct (A I) as [A1 A2]. split; right; left; [|exact A2]. apply in_firstn in A1 as (i & Hi & E). exists i. split; [lia|exact E].
      + split; right; right; (split; [exact I|]); destruct (new_field l h Hl Hh I); auto.
  Qed.
  Lemma kept_dec m l h : settled l -> In h D -> kept_field m l h \/ ~ kept_field m l h.
  Proof.
    intros Hl Hh. pose proof Hl as (_ & _ & Hs). destruct (in_dec hdr_dec h l) as [I|I].
    - destruct (in_dec hdr_dec h (fit m l)) as [F|F]; [left; right; now left|]. right. intros [K|[K|[K _]]]; try easy. now apply (Hs h).
    - left. right. right. split; [exact I|]. destruct (new_field l h Hl Hh I); auto.
  Qed.
  Lemma all_kept_dec m M hs : forall l, settled l -> incl hs D -> all_kept m M l hs \/ ~ all_kept m M l hs.
  Proof.
    induction hs as [|h hs IH]; intros l Hl Hi; cbn [all_kept]; [now left|].
    assert (Hh : In h D) by (apply Hi; now left).
    destruct (kept_dec m l h Hl Hh) as [K|K]; [|right; tauto].
    destruct (IH _ (settled_field M _ _ Hl Hh)) as [K'|K']; [intros x Hx; apply Hi; now right|left; tauto|right; tauto].
  Qed.
  Lemma all_hand m M hs : forall l, settled l -> incl hs D ->
    all_reachable M l hs /\ all_kept m M l hs <-> (forall a h b, hs = a ++ h :: b -> at_hand m (after_fields M l a) h).
  Proof.
    induction hs as [|h hs IH]; intros l Hl Hi; cbn [all_reachable all_kept].
    - split; [|tauto]. intros _ [|x a] y b E; discriminate E.
    - assert (Hh : In h D) by (apply Hi; now left). assert (Hi' : incl hs D) by (intros x Hx; apply Hi; now right).
      specialize (IH _ (settled_field M _ _ Hl Hh) Hi'). pose proof (reach_kept_hand m l h Hl Hh) as R. split.
      + intros [[R1 R2] [K1 K2]] [|x a] y b E; cbn [Datatypes.app] in E; injection E as <- E; [cbn; tauto|]. cbn. apply (proj1 IH) with b; auto.
      + intros A. pose proof (A [] h hs eq_refl) as A0. cbn in A0. apply R in A0 as [R1 K1].
        assert (B : all_reachable M (after_field M l h) hs /\ all_kept m M (after_field M l h) hs); [|tauto].
        apply IH. intros a y b ->. apply (A (h :: a) y b). reflexivity.
  Qed.
  Lemma first_lost M hs : forall l, settled l -> incl hs D ->
    all_reachable M l hs \/ exists a h b, hs = a ++ h :: b /\ all_reachable M l a /\ lost_field (after_fields M l a) h.
  Proof.
    induction hs as [|h hs IH]; intros l Hl Hi; cbn [all_reachable]; [now left|].
    assert (Hh : In h D) by (apply Hi; now left). assert (Hi' : incl hs D) by (intros x Hx; apply Hi; now right).
    destruct (reach_or_lost l h Hl Hh) as [R|R]; [|right; exists [], h, hs; split; [reflexivity|split; [exact I|exact R]]].
    destruct (IH _ (settled_field M _ _ Hl Hh) Hi') as [K|(a & x & b & -> & K1 & K2)]; [now left|right]. exists (h :: a), x, b. split; [reflexivity|]. split; [now split|exact K2].
  Qed.
End Once.

Lemma concat_at {A} (hss : list (list A)) : forall a h b, concat hss = a ++ h :: b ->
  exists dn before after later, hss = dn ++ (before ++ h :: after) :: later /\ a = concat dn ++ before.
Proof.
  induction hss as [|hs hss IH]; intros a h b E; [destruct a; discriminate E|]. cbn [concat] in E.
  assert (IH' : forall l, a = hs ++ l -> concat hss = l ++ h :: b -> exists dn before after later, hs :: hss = dn ++ (before ++ h :: after) :: later /\ a = concat dn ++ before).
  { intros l -> E'. destruct (IH l h b E') as (dn & before & after & later & -> & ->). exists (hs :: dn), before, after, later. split; [reflexivity|]. cbn [concat]. apply app_assoc. }
  destruct (app_eq_app _ _ _ _ E) as (l & [[-> E']|[-> E']]); [|now apply (IH' l)].
  destruct l as [|x l]; [apply (IH' []); [now rewrite !app_nil_r|now symmetry]|]. injection E' as <- E'.
  exists [], a, l, hss. now split.
Qed.

(** What is known of the blocks: which clients can read them if all fields are reachable, and
    what is read if one is lost. *)
Lemma read_exactly D m hss (blocks : list bytes) limit : one_value D -> incl (concat hss) D ->
  (all_reachable 65536 [] (concat hss) ->
    (all_kept m 65536 [] (concat hss) -> exists st, rfc_blocks (rfc_profile limit) ([], m) blocks hss st) /\
    (~ all_kept m 65536 [] (concat hss) -> forall hss' st, ~ rfc_blocks (rfc_profile limit) ([], m) blocks hss' st)) ->
  (forall dn before h after later, hss = dn ++ (before ++ h :: after) :: later ->
    all_reachable 65536 [] (concat dn ++ before) -> lost_field (after_fields 65536 [] (concat dn ++ before)) h ->
    forall hss' st, rfc_blocks (rfc_profile limit) ([], m) blocks hss' st ->
    exists got later', hss' = dn ++ (before ++ got) :: later' /\ forall rest, got <> h :: rest) ->
  (exists st, rfc_blocks (rfc_profile limit) ([], m) blocks hss st) <-> all_at_hand m 65536 (concat hss).
Proof.
  intros H1 Hi HS HL. assert (S0 : settled D []) by (split; [constructor|]; split; [|]; intros x []).
  assert (A : all_reachable 65536 [] (concat hss) /\ all_kept m 65536 [] (concat hss) <-> all_at_hand m 65536 (concat hss)) by exact (all_hand D H1 m 65536 (concat hss) [] S0 Hi).
  split.
  - intros [st H]. apply A. destruct (first_lost D H1 65536 (concat hss) [] S0 Hi) as [R|(a & h & b & E & R & Lo)].
    + split; [exact R|]. destruct (HS R) as [_ K]. destruct (all_kept_dec D H1 m 65536 (concat hss) [] S0 Hi) as [K'|K']; [exact K'|]. now apply (K K') in H.
    + exfalso. destruct (concat_at hss a h b E) as (dn & before & after & later & -> & ->).
      destruct (HL _ _ _ _ _ eq_refl R Lo _ _ H) as (got & later' & E' & N). apply app_inv_head in E'. injection E' as E' _. apply app_inv_head in E'. now apply (N after).
  - intros K. apply A in K as [R K]. now apply (proj1 (HS R)).
Qed.

(** For the encoder. *)
Lemma read_exactly_seq cs D m hss : m <= 65536 -> one_value D -> incl (concat hss) D -> Forall (Forall (header_ok cs)) hss ->
  forall blocks t limit, encode_seq cs (dt_init DEFAULT_MAX_TABLE_SIZE) hss = Ret (blocks, t) ->
  (exists st, rfc_blocks (rfc_profile limit) ([], m) blocks hss st) <-> all_at_hand m 65536 (concat hss).
Proof.
  intros Hm H1 Hi Hok blocks t limit E. apply (read_exactly D); [exact H1|exact Hi|..].
  - intros R. destruct (smaller_client cs m hss Hm Hok R) as (bs & t' & E' & K1 & K2). rewrite E in E'. injection E' as <- _. split; [|auto].
    intros K. eexists. exact (K1 K limit).
  - intros dn before h after later -> R Lo hss' st H. exact (lost_response cs m dn before h after later blocks t limit hss' st Hm Hok R Lo E H).
Qed.
