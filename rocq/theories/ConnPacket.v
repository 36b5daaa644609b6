(** Datagrams of a connection: what is read from acknowledgements, what send and keep-alive write. *)
From Coq Require Import String ZArith List Bool Lia ZifyBool ZifyNat.
From Verif Require Import Py BitStream Schema Registry Codec SpecBits BitLemmas ReaderLemmas WriterLemmas SpecWire SpecDecode SpecRound SpecTotal
  EncodeProofs DecodeLemmas DecodeProofs RoundTrip CodecProofs ParseRel TotalProofs ByteReader SpecFields HeaderProofs FieldProofs ValueProofs ReportProofs
  Waiter Conn SpecConn.
Import ListNotations.
Open Scope list_scope.
Open Scope string_scope.
Open Scope list_scope.
Open Scope Z_scope.
Local Ltac Zify.zify_post_hook ::= Z.div_mod_to_equations.
Local Ltac in_reg := unfold registry; repeat (first [left; reflexivity | right]).

(** ** which class was decoded *)
Lemma decoded_class bs c d : bytes_ok bs -> decode bs = Ok (VObj (CMsg c) d) -> In c registry /\ exists p, bs = s_cls c :: s_cmd c :: p /\ bytes_ok p.
Proof.
  intros B E. destruct bs as [|x [|y p]]; [discriminate E|discriminate E|].
  destruct (decode_frame x y p B) as (r2 & _ & _ & _ & _ & _ & D). cbv zeta in D. rewrite E in D. inversion B as [|? ? Hx B']; subst. inversion B' as [|? ? Hy BP]; subst.
  destruct (lookup (256 * x + y)) as [s|] eqn:L; [|discriminate]. destruct (parse_attrs _ _ _ _ _ _) as [[d' r]|]; [|discriminate]. cbn [bind] in D. injection D as -> _.
  apply lookup_some in L as [Hs L]. split; [exact Hs|]. exists p. split; [|exact BP]. rewrite hid_bytes in L by exact Hs. destruct (registry_cls_bytes s Hs). f_equal; [lia|f_equal; lia].
Qed.
Lemma name_unique s : In s registry -> forall c, In c registry -> String.eqb (s_name c) (s_name s) = true -> c = s.
Proof.
  assert (W : forallb (fun a => forallb (fun b => negb (String.eqb (s_name a) (s_name b)) || (s_hid a =? s_hid b)) registry) registry = true) by (vm_compute; reflexivity).
  intros Hs c Hc N. rewrite forallb_forall in W. specialize (W c Hc). rewrite forallb_forall in W. specialize (W s Hs). rewrite N in W. cbn [negb orb] in W.
  pose proof (lookup_hid c Hc). pose proof (lookup_hid s Hs). replace (s_hid c) with (s_hid s) in * by lia. congruence.
Qed.
Lemma is_msg_true s m bs : In s registry -> bytes_ok bs -> decode bs = Ok m -> is_msg s m = true -> exists d, m = VObj (CMsg s) d.
Proof.
  intros Hs B E I. destruct m; try discriminate I. destruct c; try discriminate I. cbn [is_msg] in I.
  destruct (decoded_class _ _ _ B E) as [Hc _]. rewrite (name_unique s Hs _ Hc I). eauto.
Qed.

(** ** header fields of a Z/IP packet of any length *)
Record zip_view (bs : list Z) (d : adict) : Prop := {
  zv_ack : truthy (getattr (VObj (CMsg m_Zip_ZipPacket) d) "ackResponse") = true <-> zip_bit bs 6;
  zv_nack : truthy (getattr (VObj (CMsg m_Zip_ZipPacket) d) "nackResponse") = true <-> zip_bit bs 5;
  zv_wait : truthy (getattr (VObj (CMsg m_Zip_ZipPacket) d) "nackWaiting") = true <-> zip_bit bs 4;
  zv_req : truthy (getattr (VObj (CMsg m_Zip_ZipPacket) d) "ackRequest") = true <-> zip_bit bs 7;
  zv_seq : forall q, to_int (getattr (VObj (CMsg m_Zip_ZipPacket) d) "seqNo") = Ok q <-> zip_seq bs q;
  zv_flag : forall n, In n ["ackResponse"; "nackResponse"; "nackWaiting"; "ackRequest"; "zwCmdIncluded"] ->
    truthy (getattr (VObj (CMsg m_Zip_ZipPacket) d) n) = flag d n }.
Lemma bit_view f0 rest i z : 0 <= i -> z = f0 / 2 ^ i mod 2 -> (truthy (VF z) = true <-> zip_bit (35 :: 2 :: f0 :: rest) i).
Proof.
  intros I ->. cbn [truthy]. unfold zip_bit. split.
  - intros H. exists f0, rest. split; [reflexivity|]. rewrite Z.testbit_eqb by exact I. lia.
  - intros (f & r & E & T). injection E as -> ->. rewrite Z.testbit_eqb in T by exact I. lia.
Qed.
Lemma no_bit i : ~ zip_bit [35; 2] i. Proof. intros (f & r & E & _). discriminate. Qed.
Lemma view_short k pre post p d0 : s_attrs m_Zip_ZipPacket = pre ++ post -> fixed pre = true -> (8 * length p)%nat = bitsum pre -> length p = k ->
  bytes_ok p -> decode (35 :: 2 :: p) = Ok (VObj (CMsg m_Zip_ZipPacket) d0) ->
  header_reads (s_attrs m_Zip_ZipPacket) pre p d0 /\ dict_ok pre d0.
Proof.
  intros EA FX L _ B E. destruct (frame_prefix m_Zip_ZipPacket pre post p [] zip_in EA FX B ltac:(constructor) L) as (d & q & cs & f & CU & ST & DO & BQ & LQ & EF & EP).
  rewrite parse_stop in EP by (rewrite at_left; reflexivity). cbn [bind] in EP. rewrite app_nil_r in EP. change (s_cls m_Zip_ZipPacket) with 35 in EP. change (s_cmd m_Zip_ZipPacket) with 2 in EP.
  rewrite E in EP. injection EP as ->. split; [|exact DO]. exact (stored_header _ _ _ _ _ CU ST).
Qed.
Definition flags_of (p : list Z) (d : adict) : Prop :=
  match p with
  | [] => aget "ackRequest" d = None /\ aget "ackResponse" d = None /\ aget "nackResponse" d = None /\ aget "nackWaiting" d = None
  | f0 :: _ => aget "ackRequest" d = Some (VF (f0 / 128 mod 2)) /\ aget "ackResponse" d = Some (VF (f0 / 64 mod 2)) /\
      aget "nackResponse" d = Some (VF (f0 / 32 mod 2)) /\ aget "nackWaiting" d = Some (VF (f0 / 16 mod 2))
  end.
Definition cmd_of (p : list Z) (d : adict) : Prop :=
  match p with f0 :: f1 :: _ => aget "zwCmdIncluded" d = Some (VF (f1 / 64 mod 2)) | _ => aget "zwCmdIncluded" d = None end.
Definition seq_of (p : list Z) (d : adict) : Prop :=
  match p with f0 :: f1 :: sq :: _ => aget "seqNo" d = Some (VI false 1 sq) | _ => aget "seqNo" d = None end.
Lemma fields_view p d : bytes_ok p -> flags_of p d -> cmd_of p d -> seq_of p d -> zip_view (35 :: 2 :: p) d.
Proof.
  intros B F C Q. assert (SQ : forall q, to_int (getattr (VObj (CMsg m_Zip_ZipPacket) d) "seqNo") = Ok q <-> zip_seq (35 :: 2 :: p) q).
  { intros q. rewrite getattr_spec. unfold seq_of in Q. destruct p as [|f0 [|f1 [|sq p]]]; rewrite Q.
    1,2,3: (split; [discriminate|intros (a & b & r & E); discriminate]).
    cbn [to_int]. split; [intros [= ->]; unfold zip_seq; eauto|intros (a & b & r & E); injection E as -> -> -> ->; reflexivity]. }
  destruct p as [|f0 p].
  - cbn [flags_of cmd_of] in F, C. destruct F as (F1 & F2 & F3 & F4). constructor; try exact SQ; rewrite ?getattr_spec, ?F1, ?F2, ?F3, ?F4.
    1-4: (split; [discriminate|intros X; elim (no_bit _ X)]).
    cbn [In]. intros n I. unfold flag. decompose [or] I; subst; try contradiction; rewrite getattr_spec; rewrite ?F1, ?F2, ?F3, ?F4, ?C; reflexivity.
  - cbn [flags_of] in F. destruct F as (F1 & F2 & F3 & F4). constructor; try exact SQ; rewrite ?getattr_spec, ?F1, ?F2, ?F3, ?F4.
    1-4: (apply bit_view; [lia|reflexivity]).
    cbn [In]. intros n I. unfold flag. decompose [or] I; subst; try contradiction; rewrite getattr_spec; rewrite ?F1, ?F2, ?F3, ?F4; try reflexivity.
    unfold cmd_of in C. destruct p; rewrite C; reflexivity.
Qed.
Ltac field_if HR nm c :=
  let v := fresh "v" in let t := fresh "t" in let G := fresh "G" in let D := fresh "D" in let R := fresh "R" in
  destruct (HR nm c eq_refl) as (v & t & G & D & R); apply some_inj in D; subst t; inversion R; subst v; clear R;
  first [rewrite num_bit in G by lia | rewrite num_low in G; change (2 ^ Z.of_nat 8) with 256 in G; rewrite Z.mod_small in G by lia].
Lemma zip_decoded bs d : bytes_ok bs -> decode bs = Ok (VObj (CMsg m_Zip_ZipPacket) d) -> zip_view bs d.
Proof.
  intros B E. destruct (decoded_class _ _ _ B E) as [_ (p & -> & BP)]. change (s_cls m_Zip_ZipPacket) with 35 in *. change (s_cmd m_Zip_ZipPacket) with 2 in *.
  apply fields_view; [exact BP| | |]; pose proof BP as BB; unfold bytes_ok in BB.
  all: destruct p as [|f0 [|f1 [|sq [|se [|de p]]]]]; rewrite ?Forall_cons_iff in BB.
  all: try (assert (P5 : bytes_ok [f0; f1; sq; se; de]) by (repeat (constructor; [tauto|]); constructor);
    destruct (zip_header_of f0 f1 sq se de p _ B E) as (d' & X & HR); injection X as <-;
    destruct (zip_fields _ _ _ _ _ _ P5 HR) as (F1 & F2 & F3 & F4 & F5 & F6 & F7 & F8 & F9 & F10 & F11 & F12 & F13);
    cbn [flags_of cmd_of seq_of]; rewrite ?(Z.mod_small (f0 / 128) 2) by lia; tauto).
  all: first [ destruct (view_short 0 (firstn 0 (s_attrs m_Zip_ZipPacket)) (skipn 0 (s_attrs m_Zip_ZipPacket)) [] d eq_refl eq_refl eq_refl eq_refl BP E) as [HR DO]
             | destruct (view_short 1 (firstn 7 (s_attrs m_Zip_ZipPacket)) (skipn 7 (s_attrs m_Zip_ZipPacket)) [f0] d eq_refl eq_refl eq_refl eq_refl BP E) as [HR DO]
             | destruct (view_short 2 (firstn 12 (s_attrs m_Zip_ZipPacket)) (skipn 12 (s_attrs m_Zip_ZipPacket)) [f0; f1] d eq_refl eq_refl eq_refl eq_refl BP E) as [HR DO]
             | destruct (view_short 3 (firstn 13 (s_attrs m_Zip_ZipPacket)) (skipn 13 (s_attrs m_Zip_ZipPacket)) [f0; f1; sq] d eq_refl eq_refl eq_refl eq_refl BP E) as [HR DO]
             | destruct (view_short 4 (firstn 15 (s_attrs m_Zip_ZipPacket)) (skipn 15 (s_attrs m_Zip_ZipPacket)) [f0; f1; sq; se] d eq_refl eq_refl eq_refl eq_refl BP E) as [HR DO] ].
  all: cbn [flags_of cmd_of seq_of].
  all: try (exact (DO "zwCmdIncluded")). all: try (exact (DO "seqNo")).
  all: try (split; [exact (DO "ackRequest")|split; [exact (DO "ackResponse")|split; [exact (DO "nackResponse")|exact (DO "nackWaiting")]]]).
  all: destruct HR as (cs & CU & HR); cbv -[Z.testbit] in CU; apply some_inj in CU; subst cs.
  all: try (field_if HR "zwCmdIncluded" [Z.testbit f1 6]; exact G).
  all: try (field_if HR "seqNo" (nbits 8 sq); exact G).
  all: field_if HR "ackRequest" [Z.testbit f0 7]; field_if HR "ackResponse" [Z.testbit f0 6]; field_if HR "nackResponse" [Z.testbit f0 5]; field_if HR "nackWaiting" [Z.testbit f0 4];
    change (2 ^ 7) with 128 in *; change (2 ^ 6) with 64 in *; change (2 ^ 5) with 32 in *; change (2 ^ 4) with 16 in *; auto.
Qed.

(** ** what is written *)
Local Ltac same_ty := let a := fresh in let I := fresh in let N := fresh in intros a I N; revert N; cbn in I;
  repeat (destruct I as [<-|I]; [cbn; intros N; first [discriminate N|reflexivity]|]); contradiction I.
Local Ltac arg := first [apply AB_int|apply AB_ub|apply AB_bits|apply AB_res|apply AB_flag|apply AB_bytes|apply AB_ip]; try (cbn; lia).
Lemma send_bytes_ok sq sep dep cmd b : 0 <= sq < 256 -> 0 <= sep < 128 -> 0 <= dep < 128 -> encodes cmd b ->
  exists cbs, compose cmd = Ok cbs /\ bytes_ok cbs /\ bits_of cbs = b /\ send_bytes sq sep dep cmd = Ok ([35; 2; 128; 80; sq; sep; dep] ++ cbs).
Proof.
  intros H1 H2 H3 EN. destruct (proj1 compose_all _ _ EN) as (_ & cbs & EC & BC & EB). exists cbs. split; [exact EC|]. split; [exact BC|]. split; [exact EB|].
  assert (A : args m_Zip_ZipPacket (send_kw sq sep dep cmd) (s_attrs m_Zip_ZipPacket)
     ([true] ++ [false] ++ [false] ++ [false] ++ [false] ++ [false] ++ repeat false 2 ++ [false] ++ [true] ++ [false] ++ [true] ++ repeat false 4 ++
      nbits 8 sq ++ repeat false 1 ++ nbits 7 sep ++ repeat false 1 ++ nbits 7 dep ++ [] ++ b ++ [])).
  { cbn [s_attrs m_Zip_ZipPacket]. unfold send_kw.
    repeat first [ eapply AR_set; [reflexivity|reflexivity|arg|same_ty|]
                 | eapply AR_unset; [reflexivity|constructor|] ].
    eapply AR_set; [reflexivity|reflexivity|apply AB_msg; exact EN|same_ty|]. apply AR_nil. }
  destruct (new_msg_compose _ _ _ zip_in A) as (m & bs & E1 & E2 & B2 & E3). unfold send_bytes. rewrite E1. cbn [bind]. rewrite E2. f_equal.
  apply bits_of_inj; [exact B2| |].
  - apply bytes_ok_app. split; [|exact BC]. repeat (constructor; [lia|]). constructor.
  - rewrite E3. unfold bits_of. rewrite flat_map_app. fold (bits_of cbs). rewrite EB. cbn [flat_map]. rewrite (nbits_8_7 sep), (nbits_8_7 dep) by assumption.
    change (s_cls m_Zip_ZipPacket) with 35. change (s_cmd m_Zip_ZipPacket) with 2. rewrite !app_nil_r. repeat (rewrite <- app_assoc || cbn [app]). reflexivity.
Qed.
Lemma keep_alive_bytes : exists m, new_msg m_Zip_ZipKeepAlive [("ackRequest", VBool true); ("ackResponse", VBool false)] = Ok m /\ compose m = Ok [35; 3; 128].
Proof. exists (VObj (CMsg m_Zip_ZipKeepAlive) [("ackRequest", VF 1); ("ackResponse", VF 0)]). split; vm_compute; reflexivity. Qed.
