(** Proofs about connections that wait for the client (C97). *)
From Verif Require Import Base BaseLemmas Huffman Http Frames SpecFrames Conn SpecConn ConnLemmas ConnRule ConnBasic ConnTerm SpecEarly ServerMore.

Section Wait.
  Variable W : Type.
  Variable app : request -> W -> W * app_answer.
  Variable cs : bool.
  Variable T : tree.
  Variable others : W -> W -> Prop.
  Variable t0 : Z.
  Variable w0 : W.
  Notation session := (session W app cs T others t0 w0).
  Notation dispatch := (dispatch W app cs T).
  Notation process := (process W app cs T).

  Definition waiting (c : conn) : Prop :=
    c_state c = AwaitingPreface /\ lenZ (c_rbuf c) < 24 \/ c_state c = AwaitingFrame /\ incomplete (c_rbuf c).
  Lemma waiting_dispatch c w : waiting c -> dispatch c w = Ret (Return WantRead, c, [], w).
  Proof.
    intros [[Hs Hl]|[Hs Hi]]; unfold Conn.dispatch; rewrite Hs.
    - unfold read_preface. change (lenZ CLIENT_PREFACE) with 24. destruct (Z.ltb_spec (lenZ (c_rbuf c)) 24); [reflexivity|lia].
    - unfold try_read_frame. destruct (Z.ltb_spec (lenZ (c_rbuf c)) 9) as [L|L]; [reflexivity|].
      destruct Hi as [Hi|(h & Hp & Hm & Hl)]; [lia|]. rewrite Hp. cbn [obind]. rewrite Z.gtb_ltb. destruct (Z.ltb_spec MAX_FRAME_SIZE (fh_length h)); [lia|].
      destruct (Z.ltb_spec (lenZ (c_rbuf c)) (9 + fh_length h)); [reflexivity|lia].
  Qed.
  Lemma waiting_room c : waiting c -> lenZ (c_rbuf c) + TEMP_READ_BUFFER_SIZE >=? MAX_READ_BUFFER_SIZE = false.
  Proof.
    intros H. assert (L : lenZ (c_rbuf c) < 9 + MAX_FRAME_SIZE).
    { destruct H as [[_ H]|[_ H]]; [change MAX_FRAME_SIZE with 16384; lia|]. destruct H as [H|(h & _ & H1 & H2)]; [change MAX_FRAME_SIZE with 16384|]; lia. }
    change MAX_FRAME_SIZE with 16384 in L. change TEMP_READ_BUFFER_SIZE with 16384. change MAX_READ_BUFFER_SIZE with 65536. lia.
  Qed.

  Lemma session_waiting A c tr w : session A (Some WantRead) c tr w -> handshaken tr -> waiting c.
  Proof.
    intros H [t Ht]. destruct (session_young _ _ _ _ _ _ _ _ _ _ _ _ H) as (Y & _). specialize (Y ltac:(discriminate)).
    apply session_any in H.
    eapply (session_rule_buffered W app cs T others t0 w0 any any (fun _ _ _ => True) (fun r c _ _ => r = WantRead -> c_state c = AwaitingHandshake \/ waiting c)) in H; auto; try discriminate.
    - destruct H as [H _]. destruct (H eq_refl) as [K|K]; [|exact K]. apply (y_before _ _ Y) in K as [K _]. subst tr. destruct Ht.
    - intros c1 tr1 w1 r c2 ev w2 _ [Hb _] _ Hs E ->. right. apply dispatch_inv in E; auto.
      assert (F : forall c3 ev3, all_bytes (c_rbuf c3) -> c_state c3 = AwaitingFrame -> try_read_frame W app cs T c3 w1 = Ret (Return WantRead, c2, ev3, w2) -> waiting c2).
      { intros c3 ev3 Hb3 Hs3 K. apply try_read_frame_inv in K; [|exact Hb3]. destruct K as [(_ & -> & _ & _ & Hi)|[(? & _)|(o & rs & f & fe & d & e & _ & _ & _ & D)]]; [right; now split|discriminate|].
        destruct fe; destruct D as [? _]; discriminate. }
      destruct E as [(Es & Hl & _ & -> & _)|[(_ & _ & _ & ? & _)|[(rest & ev2 & Es & Er & _ & E)|[(Es & E)|[(_ & ? & _)|[(_ & ? & _)|(_ & ? & _)]]]]]]; try discriminate.
      + left. now split.
      + eapply F; [| |exact E]; [|reflexivity]. cbn [c_rbuf]. rewrite Er in Hb. now apply all_bytes_app in Hb.
      + eapply F; [exact Hb|exact Es|exact E].
  Qed.
  (** A read that fails for "other" reasons, while the connection waits. *)
  Lemma other_error A c tr w s t rd : session A (Some WantRead) c tr w -> handshaken tr -> c_wbuf c = [] ->
    sc_rd s = (t, RdErr OtherError) :: rd -> process s c w = Ret (WantRead, c, [EvReadError OtherError], w).
  Proof.
    intros H Hh Hw Hr. pose proof (session_waiting _ _ _ _ H Hh) as Hc. unfold Conn.process. cbn [Nat.add internal_process].
    replace (match c_state c with AwaitingHandshake => handle_handshake (sc_hs s) c | _ => (None, c, [], sc_hs s) end)
      with (@None result, c, @nil event, sc_hs s) by (destruct Hc as [[-> _]|[-> _]]; reflexivity).
    unfold flush_write_buffer. rewrite Hw, Hw, Hr. cbn [fill_read_buffer]. rewrite (waiting_room c Hc), (waiting_dispatch c w Hc). reflexivity.
  Qed.
End Wait.
