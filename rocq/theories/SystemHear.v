(** A packet with a command is announced (C109). *)
From Coq Require Import String ZArith List Bool Lia ZifyBool.
From Verif Require Import Py Schema Registry Codec SpecBits SpecDecode SpecFields Waiter Conn SpecConn ConnLemmas ConnInv ConnCases ConnPacket ConnProps ConnRest ConnWait ConnCut.
From Verif Require Import Gateway SpecGateway GatewayProofs GatewayLinks GatewayStory GatewayNode GatewaySend GatewayUnsol GatewayLive NodeSendM NodeReq SystemM SpecSystem SystemFrom SystemProofs SystemAnswer.
From Verif Require GatewayNm DecodeProofs.
Import ListNotations.
Open Scope list_scope.
Open Scope string_scope.
Open Scope list_scope.
Open Scope Z_scope.

Section Hear.
Variable ord : list Z -> list Z.
(** on a connection of a node nobody waits for a message *)
Lemma link_clean es s tr l h : gexec ord gw0 es s tr -> only_gateway l tr -> clean_end (on_link (Some l) tr) h.
Proof.
  intros X OG t c n k (a & b & E & _) W. exfalso. assert (J : In (n, OCall t c) (on_link (Some l) tr)) by (rewrite E; apply in_or_app; right; left; reflexivity).
  unfold on_link in J. apply in_flat_map in J as ([n' o] & J & K). destruct o; try (destruct K; fail). destruct (same_link (Some l) l0) eqn:SL; [|destruct K]. apply same_link_spec in SL. subst l0. destruct K as [K|[]]. injection K as -> ->.
  destruct (OG _ _ _ J) as (t' & S). destruct (L4 _ _ (exec_linv _ _ _ _ X) _ _ _ _ _ S) as (? & ? & ? & ? & ? & ? & _ & -> & _). discriminate.
Qed.
Lemma node_of_in n l (x : list (Z * nat)) : In (n, l) x -> (forall n', In (n', l) x -> n' = n) -> node_of l x = Some n.
Proof.
  intros J U. unfold node_of. destruct (find (fun e => Nat.eqb (snd e) l) x) as [[a b]|] eqn:F.
  - apply find_some in F as [F1 F2]. cbn in F2. apply Nat.eqb_eq in F2. subst b. rewrite (U _ F1). reflexivity.
  - pose proof (find_none _ _ F _ J) as Q. cbn in Q. rewrite Nat.eqb_refl in Q. discriminate.
Qed.
Lemma brings_obj bs m : brings bs m -> exists c a, m = VObj c a.
Proof. intros [(d & c & a & _ & -> & _)|(d & -> & _)]; eauto. Qed.
(** a message that arrives on the connection of a node is announced as the node's *)
Lemma link_told es s tr n l bs m ep : gexec ord gw0 es s tr -> In (n, l) (d_conns (g_d s)) -> bytes_ok bs -> only_gateway l tr -> brings bs m -> zip_from bs ep m ->
  exists s' v, gstep ord s (GConn (Some l) (EvPacket bs)) = Some (s', [GAt (Some l) (ORecv bs); GAt (Some l) (OHeard v); GTold (Some l) n (VU 7 ep) m (VInt 0); GAt (Some l) (OHandled true)]).
Proof.
  intros X J B OG BR ZF. pose proof (proj2 (GatewayNm.exec_socket ord _ _ _ _ X) (table_open ord _ _ _ X _ _ J)) as UP. unfold GatewayNm.upat in UP. destruct (conn_at (Some l) (g_d s)) as [k|] eqn:K; [|discriminate].
  destruct (link_good _ _ _ _ (exec_linked _ _ _ _ X) K) as (evs & XK). destruct (ConnRest.heard _ _ _ (hid m) bs m XK (proj2 (exec_up _ _ _ XK) UP) (link_clean _ _ _ _ _ X OG) B BR eq_refl) as (v & D & ST).
  cbn [gstep]. rewrite K, ST. cbn [returned find]. eexists _, v. cbn [flat_map lift List.app]. do 3 f_equal.
  destruct ZF as (f0 & f1 & q & se & de & rest & d & -> & E & D' & C). rewrite D in D'. injection D' as ->.
  assert (U : node_of l (d_conns (g_d s)) = Some n).
  { apply node_of_in; [exact J|]. intros n' J'. pose proof (exec_linv _ _ _ _ X) as L. exact (L2 _ _ L _ _ _ (L3 _ _ L _ _ J') (L3 _ _ L _ _ J)). }
  unfold Gateway.heard. rewrite U. change (is_msg m_Zip_ZipPacket (VObj (CMsg m_Zip_ZipPacket) d)) with true. cbv iota.
  destruct (brings_obj _ _ BR) as (cl & a & ->). assert (GC : getattr (VObj (CMsg m_Zip_ZipPacket) d) "command" = VObj cl a) by (rewrite DecodeProofs.getattr_spec, C; reflexivity).
  destruct (command_whole _ _ _ _ B D GC) as (ep' & SE & (f0' & f1' & q' & se' & de' & rest' & d' & Q & E' & _)). injection Q as <- <- <- <- <- <-. rewrite SE, GC. subst ep ep'. reflexivity.
Qed.
End Hear.
Section System.
Variable ord : list Z -> list Z.
Lemma announced_gos n os nos : at_nodes nos -> announced (ystamp n (map YG os ++ nos)) = flat_map (fun o => match o with GTold _ n ep c f => [(n, key_of ep, c, f)] | _ => [] end) os.
Proof.
  intros A. unfold ystamp. rewrite map_app. unfold announced. rewrite flat_map_app.
  assert (E : forall l, at_nodes l -> flat_map (fun x : Z * yobs => match x with (_, YG (GTold _ n0 ep c f)) => [(n0, key_of ep, c, f)] | _ => [] end) (map (pair n) l) = []).
  { induction 1 as [|o l O _ IH]; [reflexivity|]. cbn. destruct o as [|?|?|?]; try exact IH. destruct O. }
  rewrite (E _ A), app_nil_r. clear A E. induction os as [|o os IH]; [reflexivity|]. cbn. rewrite IH. destruct o; reflexivity.
Qed.
Lemma gw_announces s e g os : gstep ord (y_g s) e = Some (g, os) -> (forall dt, e <> GAdvance dt) ->
  exists s' os', ystep ord s (YGw e) = Some (s', os') /\ forall n, announced (ystamp n os') = flat_map (fun o => match o with GTold _ n ep c f => [(n, key_of ep, c, f)] | _ => [] end) os.
Proof.
  intros E NA. destruct (gw_go ord e s) as [[s' os']|] eqn:G; [|unfold gw_go in G; rewrite E in G; destruct (settle _ _); discriminate].
  exists s', os'. split; [destruct e; try exact G; elim (NA _ eq_refl)|]. intros n. unfold gw_go in G. rewrite E in G. destruct (settle os _) as [s1 o1] eqn:S. injection G as <- <-.
  apply announced_gos. destruct (settle_spec 0 _ _ _ _ S) as (_ & _ & _ & _ & _ & AN & _). exact AN.
Qed.
(** a packet on a connection of node [n] *)
Theorem link_announced es s tr n l bs m ep : yexec ord sys0 es s tr -> In (n, l) (d_conns (g_d (y_g s))) -> only_gateway l (on_gw tr) -> bytes_ok bs -> brings bs m -> zip_from bs ep m ->
  exists s' os, ystep ord s (YGw (GConn (Some l) (EvPacket bs))) = Some (s', os) /\ forall k, announced (ystamp k os) = [(n, Some ep, m, VInt 0)].
Proof.
  intros X J OG B BR ZF. destruct (v_gw _ _ _ (yexec_inv ord _ _ _ X)) as (ges & XG). destruct (link_told ord _ _ _ _ _ _ _ _ XG J B OG BR ZF) as (g & v & E).
  destruct (gw_announces s _ _ _ E ltac:(discriminate)) as (s' & os & ST & A). exists s', os. split; [exact ST|]. intros k. rewrite A. reflexivity.
Qed.
(** a packet to the unsolicited port *)
Theorem packet_announced s f0 f1 sq se de rest m a n : let bs := 35 :: 2 :: [f0; f1; sq; se; de] ++ rest in
  bytes_ok bs -> decode bs = Ok m -> is_msg m_NetworkManagementProxy_NodeListReport (getattr m "command") = false ->
  (forall x y, listed (y_g s) x a -> listed (y_g s) y a -> x = y) -> listed (y_g s) n a ->
  exists s' os, ystep ord s (YGw (GUnsol bs (Some a))) = Some (s', os) /\ forall k, announced (ystamp k os) = [(n, Some (se mod 128), getattr m "command", getattr m "headerExtension")].
Proof.
  intros bs B D NL U L. destruct (GatewayUnsol.told ord (y_g s) f0 f1 sq se de rest m a B D NL U) as (os & E & T & _). specialize (T n L).
  destruct (gw_announces s _ _ _ E ltac:(discriminate)) as (s' & os' & ST & A). exists s', os'. split; [exact ST|]. intros k. rewrite A. cbn [flat_map]. rewrite T. destruct (128 <=? f0); reflexivity.
Qed.
End System.
