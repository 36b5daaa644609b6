(** Proofs for C98-C100. *)
From Coq Require Import ZArith List Bool Lia.
From Verif Require Import Py DtlsM SpecDtls.
Import ListNotations.
Open Scope Z_scope.

Lemma reads_app a b : reads (a ++ b) = reads a ++ reads b.
Proof. apply flat_map_app. Qed.
Lemma delivered_app a b : delivered (a ++ b) = delivered a ++ delivered b.
Proof. apply flat_map_app. Qed.
Lemma registered_app a : forall cb b, registered cb (a ++ b) = registered (registered cb a) b.
Proof. induction a as [|[n o] a IH]; intros cb b; [reflexivity|]. destruct o; cbn; apply IH. Qed.
Lemma registered_quiet b : forall cb, (forall m c, ~ In (m, YSet c) b) -> registered cb b = cb.
Proof.
  induction b as [|[n o] b IH]; intros cb N; [reflexivity|]. assert (N' : forall m c, ~ In (m, YSet c) b) by (intros m c J; apply (N m c); right; exact J).
  destruct o; cbn; try (apply IH; exact N'). destruct (N n cb0). left. reflexivity.
Qed.
Lemma step_cb s e s' o cb0 tr : dstep s e = Some (s', o) -> x_cb s = registered cb0 tr -> x_cb s' = registered cb0 (tr ++ map (pair (x_now s)) o).
Proof.
  intros E I. rewrite registered_app, <- I. destruct e; cbn [dstep] in E.
  - cbv zeta in E. destruct (started _) in E; injection E as <- <-; reflexivity.
  - cbv zeta in E. destruct (started _) in E; injection E as <- <-; reflexivity.
  - destruct (x_th s) in E; try discriminate E. injection E as <- <-. reflexivity.
  - destruct (x_th s) in E; try discriminate E. injection E as <- <-. reflexivity.
  - unfold dthread in E. destruct (x_th s) eqn:T in E; try discriminate E; try (injection E as <- <-; reflexivity).
    destruct (x_running s) in E; injection E as <- <-; reflexivity.
  - destruct (x_th s) in E; try discriminate E. injection E as <- <-. reflexivity.
  - destruct (x_th s) in E; try discriminate E. destruct attr; injection E as <- <-; reflexivity.
  - unfold dloop in E. destruct (x_queue s) as [|[|[c|] p a] q] in E; try discriminate E; injection E as <- <-; reflexivity.
  - injection E as <- <-. reflexivity.
  - injection E as <- <-. reflexivity.
  - destruct (x_sock s) in E; [destruct r|]; injection E as <- <-; reflexivity.
  - destruct (nth_error (x_waits s) t) as [[]|] in E; try discriminate E; injection E as <- <-; reflexivity.
  - destruct (nth_error (x_waits s) t) as [[]|] in E; try discriminate E; destruct (_ <=? _) in E; try discriminate E; injection E as <- <-; reflexivity.
  - destruct (0 <=? dt) in E; [|discriminate E]. injection E as <- <-. reflexivity.
Qed.
Lemma exec_cb es s tr : dexec dtls0 es s tr -> x_cb s = registered None tr.
Proof. intros X. induction X as [|es s tr e s' o X IH ST]; [reflexivity|]. exact (step_cb _ _ _ _ _ _ ST IH). Qed.

(** ** C98 *)
Definition shape (k : nat) (x : list Z * option Z) : nat * list Z * option Z := (k, fst x, snd x).
Definition queued (q : list item) : list (nat * list Z * option Z) := flat_map (fun i => match i with QCall (Some c) p a => [(c, p, a)] | _ => [] end) q.
Definition inflight (k : nat) (th : thread) : list (nat * list Z * option Z) :=
  match th with TGot sv p a | TPass sv p a => [(k, p, if sv then Some a else None)] | _ => [] end.
Record del (k : nat) (s : dtls) (tr : list (Z * dobs)) : Prop := mkDel {
  l_eq : map (shape k) (reads tr) = delivered tr ++ queued (x_queue s) ++ inflight k (x_th s);
  l_none : forall p a, ~ In (QCall None p a) (x_queue s);
  l_type : ~ seen YTypeError tr;
  l_cb : reads tr <> [] -> x_cb s = Some k }.
Lemma seen_app o a b : seen o (a ++ b) <-> seen o a \/ seen o b.
Proof. unfold seen. split; [intros [n J]; apply in_app_iff in J as [J|J]; eauto|intros [[n J]|[n J]]; exists n; apply in_or_app; auto]. Qed.
Lemma seen_pair o n os : seen o (map (pair n) os) <-> In o os.
Proof. unfold seen. split; [intros [m J]; apply in_map_iff in J as (x & E & J); congruence|intros J; exists n; apply in_map; exact J]. Qed.
(** a step that neither reads nor delivers and keeps queue, thread and callback as far as they matter *)
Lemma del_same k s tr s' o : del k s tr -> reads (map (pair (x_now s)) o) = [] -> delivered (map (pair (x_now s)) o) = [] -> ~ In YTypeError o ->
  queued (x_queue s') = queued (x_queue s) -> (forall p a, In (QCall None p a) (x_queue s') -> In (QCall None p a) (x_queue s)) ->
  inflight k (x_th s') = inflight k (x_th s) -> (reads tr <> [] -> x_cb s' = Some k) -> del k s' (tr ++ map (pair (x_now s)) o).
Proof.
  intros [A B C D] R DL NT Q QN IN CB. constructor.
  - rewrite reads_app, delivered_app, R, DL, !app_nil_r, Q, IN. exact A.
  - intros p a J. exact (B p a (QN p a J)).
  - rewrite seen_app, seen_pair. intros [H|H]; [exact (C H)|exact (NT H)].
  - rewrite reads_app, R, app_nil_r. exact CB.
Qed.
Lemma del_step k s tr e s' o : del k s tr -> dstep s e = Some (s', o) -> (forall c, e = DSet c -> reads tr = [] \/ c = Some k) -> (forall p a, e = DRecv p a -> x_cb s = Some k) ->
  del k s' (tr ++ map (pair (x_now s)) o).
Proof.
  intros I E HS HR. pose proof (l_cb _ _ _ I) as CB.
  destruct e; cbn [dstep] in E.
  - cbv zeta in E. unfold started, with_event in E. cbn [x_th] in E. destruct (x_th s) eqn:T in E; injection E as <- <-; apply del_same; auto; cbn; try (intuition discriminate); rewrite T; reflexivity.
  - cbv zeta in E. unfold started in E. cbn [x_th] in E. destruct (x_th s) eqn:T in E; injection E as <- <-; apply del_same; auto; cbn; try (intuition discriminate); rewrite T; reflexivity.
  - destruct (x_th s) eqn:T in E; try discriminate E. injection E as <- <-. apply del_same; auto; cbn; try (intuition discriminate). rewrite T. reflexivity.
  - destruct (x_th s) eqn:T in E; try discriminate E. injection E as <- <-. apply del_same; auto; cbn; try (intuition discriminate). rewrite T. reflexivity.
  - unfold dthread in E. destruct (x_th s) as [| | | | |sv|sv p a|sv p a|] eqn:T in E; try discriminate E.
    + injection E as <- <-. apply del_same; auto; cbn.
      * unfold queued. rewrite flat_map_app. cbn. apply app_nil_r.
      * intros p a J. apply in_app_iff in J as [J|[J|[]]]; [exact J|discriminate J].
      * rewrite T. reflexivity.
    + injection E as <- <-. apply del_same; auto; cbn. rewrite T. reflexivity.
    + destruct (x_running s) in E; injection E as <- <-; apply del_same; auto; cbn; try (intuition discriminate); rewrite T; reflexivity.
    + injection E as <- <-. assert (X : x_cb s = Some k).
      { apply CB. intros R. pose proof (l_eq _ _ _ I) as Q. rewrite R, T in Q. cbn in Q. destruct (delivered tr); [|discriminate Q]. destruct (queued _); discriminate Q. }
      apply del_same; auto; cbn. rewrite X, T. reflexivity.
    + injection E as <- <-. assert (X : x_cb s = Some k).
      { apply CB. intros R. pose proof (l_eq _ _ _ I) as Q. rewrite R, T in Q. cbn in Q. destruct (delivered tr); [|discriminate Q]. destruct (queued _); discriminate Q. }
      destruct I as [A B C D]. constructor; cbn.
      * rewrite app_nil_r, A, T, X. unfold queued. rewrite flat_map_app. cbn. now rewrite !app_nil_r.
      * intros p' a' J. apply in_app_iff in J as [J|[J|[]]]; [exact (B _ _ J)|]. rewrite X in J. discriminate J.
      * rewrite app_nil_r. exact C.
      * rewrite app_nil_r. exact D.
  - destruct (x_th s) as [| | | | |sv|sv q b|sv q b|] eqn:T in E; try discriminate E. injection E as <- <-. destruct I as [A B C D]. constructor; cbn.
    + rewrite reads_app, map_app, A, delivered_app, T. cbn. rewrite !app_nil_r, <- !app_assoc. reflexivity.
    + exact B.
    + rewrite seen_app. intros [H|[n [H|[]]]]; [exact (C H)|discriminate H].
    + intros _. exact (HR _ _ eq_refl).
  - destruct (x_th s) eqn:T in E; try discriminate E. destruct attr; injection E as <- <-; apply del_same; auto; cbn; try (intuition discriminate); rewrite T; reflexivity.
  - unfold dloop in E. destruct (x_queue s) as [|[|[c|] p a] q] eqn:Q in E; try discriminate E.
    + injection E as <- <-. apply del_same; auto; cbn; try (intuition discriminate); rewrite Q; [reflexivity|]. intros p a J. right. exact J.
    + injection E as <- <-. destruct I as [A B C D]. constructor; cbn.
      * rewrite reads_app, delivered_app. cbn. rewrite app_nil_r, A, Q. cbn. now rewrite <- app_assoc.
      * intros p' a' J. apply (B p' a'). rewrite Q. right. exact J.
      * rewrite seen_app. intros [H|[n [H|[]]]]; [exact (C H)|discriminate H].
      * rewrite reads_app, app_nil_r. exact D.
    + exfalso. apply (l_none _ _ _ I p a). rewrite Q. left. reflexivity.
  - injection E as <- <-. apply del_same; auto; cbn; try (intuition discriminate).
    intros R. destruct (HS _ eq_refl) as [H|H]; [destruct (R H)|exact H].
  - injection E as <- <-. apply del_same; auto; cbn; intuition discriminate.
  - destruct (x_sock s) in E; [destruct r|]; injection E as <- <-; apply del_same; auto; cbn; intuition discriminate.
  - destruct (nth_error (x_waits s) t) as [[]|] in E; try discriminate E; injection E as <- <-; apply del_same; auto; cbn; intuition discriminate.
  - destruct (nth_error (x_waits s) t) as [[]|] in E; try discriminate E; destruct (_ <=? _) in E; try discriminate E; injection E as <- <-; apply del_same; auto; cbn; intuition discriminate.
  - destruct (0 <=? dt) in E; [|discriminate E]. injection E as <- <-. apply del_same; auto; cbn; intuition discriminate.
Qed.
Lemma reads_in tr : reads tr <> [] -> exists a n sv p ad b, tr = a ++ (n, YRead sv p ad) :: b.
Proof.
  induction tr as [|[n o] tr IH]; intros R; [destruct (R eq_refl)|].
  assert (N : reads tr <> [] -> exists a m sv p ad b, (n, o) :: tr = a ++ (m, YRead sv p ad) :: b).
  { intros H. destruct (IH H) as (a & m & sv & p & ad & b & ->). exists ((n, o) :: a), m, sv, p, ad, b. reflexivity. }
  destruct o; try (exact (N R)). exists [], n, sv, p, a, tr. reflexivity.
Qed.
Lemma steady_app k a b : steady k (a ++ b) -> steady k a.
Proof. intros H x n sv p ad y E. destruct (H x n sv p ad (y ++ b)) as [R N]; [rewrite E, <- app_assoc; reflexivity|]. split; [exact R|]. intros m cb J. apply (N m cb), in_or_app. auto. Qed.
Lemma exec_del k es s tr : dexec dtls0 es s tr -> steady k tr -> del k s tr.
Proof.
  intros X. induction X as [|es s tr e s' o X IH ST]; intros SD.
  - constructor; cbn; auto. intros [n []]. intros []. reflexivity.
  - eapply del_step; [exact (IH (steady_app _ _ _ SD))|exact ST| |].
    + intros c ->. cbn in ST. injection ST as <- <-. destruct (reads tr) as [|rd rds] eqn:R; [auto|]. destruct (reads_in tr) as (a & n & sv & p & ad & b & E); [congruence|].
      destruct (SD a n sv p ad (b ++ [(x_now s, YSet c)])) as [_ N]; [rewrite E, <- app_assoc; reflexivity|]. destruct (N (x_now s) c). apply in_or_app. right. left. reflexivity.
    + intros p a ->. cbn in ST. destruct (x_th s) as [| | | | |sv|sv q b|sv q b|] in ST; try discriminate ST. injection ST as <- <-.
      destruct (SD tr (x_now s) sv p a []) as [R _]; [reflexivity|]. rewrite (exec_cb _ _ _ X). exact R.
Qed.
Lemma dexec_cons s0 e s1 o es s tr : dstep s0 e = Some (s1, o) -> dexec s1 es s tr -> dexec s0 (e :: es) s (map (pair (x_now s0)) o ++ tr).
Proof.
  intros E X. induction X as [|es s tr e' s' o' X IH ST].
  - rewrite app_nil_r. exact (dexec_snoc s0 [] s0 [] e s1 o (dexec_nil s0) E).
  - rewrite app_assoc. exact (dexec_snoc s0 (e :: es) s _ e' s' o' IH ST).
Qed.
Lemma drun_exec es : forall s0 s tr, drun s0 es = Some (s, tr) -> dexec s0 es s tr.
Proof.
  induction es as [|e es IH]; intros s0 s tr E; cbn in E; [injection E as <- <-; constructor|].
  destruct (dstep s0 e) as [[s1 o]|] eqn:ST; [|discriminate]. destruct (drun s1 es) as [[s2 tr']|] eqn:R; [|discriminate]. injection E as <- <-.
  exact (dexec_cons _ _ _ _ _ _ _ ST (IH _ _ _ R)).
Qed.
(** the event loop works its queue off *)
Lemma drain k q : forall s tr, del k s tr -> x_queue s = q -> inflight k (x_th s) = [] ->
  exists es s' tr', going_on es /\ dexec s es s' tr' /\ del k s' (tr ++ tr') /\ x_queue s' = [] /\ inflight k (x_th s') = [] /\ reads tr' = [].
Proof.
  induction q as [|i q IH]; intros s tr D Q T.
  - exists [], s, []. rewrite app_nil_r. repeat split; auto; try (intros e []); try apply dexec_nil; apply D.
  - assert (K : exists s1 o, dstep s DLoop = Some (s1, o) /\ x_queue s1 = q /\ x_th s1 = x_th s /\ reads (map (pair (x_now s)) o) = []).
    { cbn. unfold dloop. rewrite Q. destruct i as [|[c|] p a]; eexists _, _; repeat split. }
    destruct K as (s1 & o & ST & Q1 & T1 & R1).
    destruct (IH s1 (tr ++ map (pair (x_now s)) o)) as (es & s' & tr' & G & X & D' & Q' & T' & R'); [|exact Q1|rewrite T1; exact T|].
    + eapply del_step; [exact D|exact ST|discriminate|discriminate].
    + exists (DLoop :: es), s', (map (pair (x_now s)) o ++ tr'). split; [intros e [<-|J]; [auto|exact (G e J)]|]. split; [exact (dexec_cons _ _ _ _ _ _ _ ST X)|].
      split; [rewrite app_assoc; exact D'|]. repeat split; auto. now rewrite reads_app, R1, R'.
Qed.
Lemma flush k s tr : del k s tr -> exists es s' tr', going_on es /\ dexec s es s' tr' /\ del k s' (tr ++ tr') /\ inflight k (x_th s') = [] /\ reads tr' = [].
Proof.
  intros D. assert (X : inflight k (x_th s) <> [] -> x_cb s = Some k).
  { intros N. apply (l_cb _ _ _ D). intros R. pose proof (l_eq _ _ _ D) as Q. rewrite R in Q. cbn in Q. destruct (delivered tr); [|discriminate Q]. destruct (queued _); [|discriminate Q]. exact (N (eq_sym Q)). }
  assert (P : forall s tr sv p a, del k s tr -> x_th s = TPass sv p a -> exists es s' tr', going_on es /\ dexec s es s' tr' /\ del k s' (tr ++ tr') /\ inflight k (x_th s') = [] /\ reads tr' = []).
  { clear. intros s tr sv p a D T. pose proof (eq_refl : dstep s DThread = dthread s) as ST. unfold dthread in ST. rewrite T in ST.
    exists [DThread]. eexists _, []. split; [intros e [<-|[]]; auto|]. split; [exact (dexec_snoc s [] s [] DThread _ [] (dexec_nil s) ST)|].
    split; [exact (del_step _ _ _ _ _ _ D ST ltac:(discriminate) ltac:(discriminate))|]. split; reflexivity. }
  destruct (x_th s) as [| | | | |sv|sv p a|sv p a|] eqn:T; try (exists [], s, []; rewrite app_nil_r, T; repeat split; auto; try (intros e []); try apply dexec_nil; apply D).
  - pose proof (eq_refl : dstep s DThread = dthread s) as ST. unfold dthread in ST. rewrite T, X in ST by discriminate.
    pose proof (del_step _ _ _ _ _ _ D ST ltac:(discriminate) ltac:(discriminate)) as D1. cbn [map] in D1.
    destruct (P _ _ sv p a D1 eq_refl) as (es & s' & tr' & G & X' & D' & T' & R').
    exists (DThread :: es), s', tr'. split; [intros e [<-|J]; [auto|exact (G e J)]|]. split; [exact (dexec_cons _ _ _ _ _ _ _ ST X')|]. rewrite app_nil_r in D'. auto.
  - exact (P s tr sv p a D T).
Qed.
Lemma dexec_app s0 es1 s1 tr1 es2 s2 tr2 : dexec s0 es1 s1 tr1 -> dexec s1 es2 s2 tr2 -> dexec s0 (es1 ++ es2) s2 (tr1 ++ tr2).
Proof.
  intros X Y. induction Y as [|es s tr e s' o Y IH ST]; [rewrite !app_nil_r; exact X|]. rewrite !app_assoc. exact (dexec_snoc _ _ _ _ _ _ _ IH ST).
Qed.
Lemma packets_delivered es s tr k : dexec dtls0 es s tr -> steady k tr ->
  ~ seen YTypeError tr /\ (exists rest, map (fun x => (k, fst x, snd x)) (reads tr) = delivered tr ++ rest) /\
  exists es' s' tr', going_on es' /\ dexec s es' s' tr' /\ reads tr' = [] /\ delivered (tr ++ tr') = map (fun x => (k, fst x, snd x)) (reads tr).
Proof.
  intros X SD. pose proof (exec_del _ _ _ _ X SD) as D. split; [exact (l_type _ _ _ D)|]. split; [eexists; exact (l_eq _ _ _ D)|].
  destruct (flush _ _ _ D) as (e1 & s1 & t1 & G1 & X1 & D1 & T1 & R1). destruct (drain k _ _ _ D1 eq_refl T1) as (e2 & s2 & t2 & G2 & X2 & D2 & Q2 & T2 & R2).
  exists (e1 ++ e2), s2, (t1 ++ t2). split; [intros e J; apply in_app_iff in J as [J|J]; [exact (G1 e J)|exact (G2 e J)]|]. split; [exact (dexec_app _ _ _ _ _ _ _ X1 X2)|].
  rewrite reads_app, R1, R2. split; [reflexivity|]. pose proof (l_eq _ _ _ D2) as Q. rewrite Q2, T2, !reads_app, R1, R2 in Q. cbn in Q. rewrite !app_nil_r, <- app_assoc in Q. symmetry. exact Q.
Qed.
(** whatever is done with the callback *)
Lemma subseq_refl {A} (l : list A) : subseq l l.
Proof. induction l; constructor; assumption. Qed.
Lemma subseq_snoc {A} (a b : list A) x : subseq a b -> subseq (a ++ [x]) (b ++ [x]).
Proof. intros H. induction H; cbn; [constructor; constructor|constructor; assumption|constructor; assumption]. Qed.
Lemma subseq_remove {A} (a b r : list A) x : subseq (a ++ x :: b) r -> subseq (a ++ b) r.
Proof.
  intros H. remember (a ++ x :: b) as l eqn:E. revert a E. induction H as [|y l r H IH|y l r H IH]; intros a E.
  - destruct a; discriminate E.
  - constructor. exact (IH a E).
  - destruct a as [|z a]; cbn in *; injection E as -> ->; [constructor; exact H|constructor; exact (IH a eq_refl)].
Qed.
Definition carried (q : list item) : list (list Z * option Z) := flat_map (fun i => match i with QCall _ p a => [(p, a)] | QSet => [] end) q.
Definition held (th : thread) : list (list Z * option Z) := match th with TGot sv p a | TPass sv p a => [(p, if sv then Some a else None)] | _ => [] end.
Definition strip (l : list (nat * list Z * option Z)) : list (list Z * option Z) := map (fun x => (snd (fst x), snd x)) l.
Definition sub_inv (s : dtls) (tr : list (Z * dobs)) : Prop := subseq (strip (delivered tr) ++ carried (x_queue s) ++ held (x_th s)) (reads tr).
Lemma sub_same s tr s' o : sub_inv s tr -> reads (map (pair (x_now s)) o) = [] -> delivered (map (pair (x_now s)) o) = [] -> carried (x_queue s') = carried (x_queue s) -> held (x_th s') = held (x_th s) ->
  sub_inv s' (tr ++ map (pair (x_now s)) o).
Proof. intros I R D Q H. unfold sub_inv. rewrite reads_app, delivered_app, R, D, !app_nil_r, Q, H. exact I. Qed.
Lemma sub_step s tr e s' o : sub_inv s tr -> dstep s e = Some (s', o) -> sub_inv s' (tr ++ map (pair (x_now s)) o).
Proof.
  intros I E. destruct e; cbn [dstep] in E.
  - cbv zeta in E. unfold started, with_event in E. cbn [x_th] in E. destruct (x_th s) eqn:T in E; injection E as <- <-; apply sub_same; auto; cbn; rewrite T; reflexivity.
  - cbv zeta in E. unfold started in E. cbn [x_th] in E. destruct (x_th s) eqn:T in E; injection E as <- <-; apply sub_same; auto; cbn; rewrite T; reflexivity.
  - destruct (x_th s) eqn:T in E; try discriminate E. injection E as <- <-. apply sub_same; auto. cbn. rewrite T. reflexivity.
  - destruct (x_th s) eqn:T in E; try discriminate E. injection E as <- <-. apply sub_same; auto. cbn. rewrite T. reflexivity.
  - unfold dthread in E. destruct (x_th s) as [| | | | |sv|sv p a|sv p a|] eqn:T in E; try discriminate E.
    + injection E as <- <-. apply sub_same; auto; cbn; [unfold carried; rewrite flat_map_app; cbn; apply app_nil_r|rewrite T; reflexivity].
    + injection E as <- <-. apply sub_same; auto; cbn. rewrite T. reflexivity.
    + destruct (x_running s) in E; injection E as <- <-; apply sub_same; auto; cbn; rewrite T; reflexivity.
    + injection E as <- <-. destruct (x_cb s); [apply sub_same; auto; cbn; rewrite T; reflexivity|].
      unfold sub_inv in *. rewrite T in I. cbn in *. rewrite !app_nil_r. apply subseq_remove with (x := (p, if sv then Some a else None)) (b := []) (a := strip (delivered tr) ++ carried (x_queue s)) in I || idtac.
      rewrite app_assoc in I. apply subseq_remove in I. rewrite app_nil_r in I. exact I.
    + injection E as <- <-. unfold sub_inv in *. rewrite T in I. cbn in *. rewrite !app_nil_r. unfold carried in *. rewrite flat_map_app. cbn. exact I.
  - destruct (x_th s) as [| | | | |sv|sv q b|sv q b|] eqn:T in E; try discriminate E. injection E as <- <-. unfold sub_inv in *. rewrite T in I. cbn in *.
    rewrite reads_app, delivered_app. cbn. rewrite !app_nil_r in *. rewrite app_assoc. apply subseq_snoc. exact I.
  - destruct (x_th s) eqn:T in E; try discriminate E. destruct attr; injection E as <- <-; apply sub_same; auto; cbn; rewrite T; reflexivity.
  - unfold dloop in E. destruct (x_queue s) as [|[|[c|] p a] q] eqn:Q in E; try discriminate E; injection E as <- <-.
    + apply sub_same; auto; cbn; rewrite Q; reflexivity.
    + unfold sub_inv in *. rewrite Q in I. cbn in *. rewrite reads_app, delivered_app. cbn. rewrite app_nil_r. unfold strip in *. rewrite map_app, <- app_assoc. exact I.
    + unfold sub_inv in *. rewrite Q in I. cbn in *. rewrite reads_app, delivered_app. cbn. rewrite !app_nil_r. exact (subseq_remove _ _ _ _ I).
  - injection E as <- <-. apply sub_same; auto.
  - injection E as <- <-. apply sub_same; auto.
  - destruct (x_sock s) in E; [destruct r|]; injection E as <- <-; apply sub_same; auto.
  - destruct (nth_error (x_waits s) t) as [[]|] in E; try discriminate E; injection E as <- <-; apply sub_same; auto.
  - destruct (nth_error (x_waits s) t) as [[]|] in E; try discriminate E; destruct (_ <=? _) in E; try discriminate E; injection E as <- <-; apply sub_same; auto.
  - destruct (0 <=? dt) in E; [|discriminate E]. injection E as <- <-. apply sub_same; auto.
Qed.
Lemma subseq_prefix {A} (a b r : list A) : subseq (a ++ b) r -> subseq a r.
Proof. revert a. induction b as [|x b IH]; intros a H; [rewrite app_nil_r in H; exact H|]. apply IH. exact (subseq_remove _ _ _ _ H). Qed.
Lemma delivered_read es s tr : dexec dtls0 es s tr -> subseq (map (fun x => (snd (fst x), snd x)) (delivered tr)) (reads tr).
Proof.
  intros X. assert (I : sub_inv s tr); [|exact (subseq_prefix _ _ _ I)].
  induction X as [|es s tr e s' o X IH ST]; [constructor|]. exact (sub_step _ _ _ _ _ IH ST).
Qed.

(** ** C99 *)
Definition past (th : thread) : bool := match th with TTest | TRecv _ | TGot _ _ _ | TPass _ _ _ | TEnd => true | _ => false end.
Definition pending (th : thread) : nat := match th with TRecv _ => 1 | _ => 0 end.
Ltac steps E :=
  match type of E with dstep ?s ?e = _ =>
    destruct e; cbn [dstep] in E; cbv zeta in E; unfold dthread, dloop, started, with_event in E; cbn [x_th x_waits x_running x_server] in E;
    repeat match type of E with
      | context [match x_th s with _ => _ end] => let T := fresh "T" in destruct (x_th s) eqn:T
      | context [match x_queue s with _ => _ end] => let Q := fresh "Q" in destruct (x_queue s) as [|[|[?c|] ?p ?a] ?q] eqn:Q
      | context [if ?b then _ else _] => let B := fresh "B" in destruct b eqn:B
      | context [match nth_error ?l ?t with _ => _ end] => let W := fresh "W" in destruct (nth_error l t) as [[]|] eqn:W
      | context [match ?r with Ok _ => _ | Err _ => _ end] => destruct r
      end; try discriminate E; injection E as <- <-
  end.
Lemma step_past s e s' o : dstep s e = Some (s', o) -> past (x_th s) = true -> past (x_th s') = true /\ (x_running s = false -> x_running s' = false).
Proof. intros E P. steps E; cbn in *; try discriminate P; rewrite ?T in *; cbn in *; try discriminate P; auto; try (rewrite ?P; auto); try (destruct (x_cb s); auto); (split; [reflexivity|congruence]). Qed.
Lemma step_pending s e s' o : dstep s e = Some (s', o) -> past (x_th s) = true -> x_running s = false ->
  (length (reads (map (pair (x_now s)) o)) + pending (x_th s') <= pending (x_th s))%nat.
Proof. intros E P R. steps E; cbn in *; rewrite ?T in *; cbn in *; try discriminate P; try congruence; try lia; try (destruct (x_cb s); cbn; lia). Qed.
Lemma late s0 es s tr : dexec s0 es s tr -> past (x_th s0) = true -> x_running s0 = false ->
  past (x_th s) = true /\ x_running s = false /\ (length (reads tr) + pending (x_th s) <= pending (x_th s0))%nat.
Proof.
  intros X P R. induction X as [|es s tr e s' o X (IH1 & IH2 & IH3) ST]; [cbn; auto|].
  destruct (step_past _ _ _ _ ST IH1) as [A B]. split; [exact A|]. split; [exact (B IH2)|]. pose proof (step_pending _ _ _ _ ST IH1 IH2). rewrite reads_app, app_length. lia.
Qed.
Lemma exec_past es s tr : dexec dtls0 es s tr -> (exists sv p a, seen (YRead sv p a) tr) -> past (x_th s) = true.
Proof.
  intros X. induction X as [|es s tr e s' o X IH ST]; intros (sv & p & a & S); [destruct S as [n []]|].
  apply seen_app in S as [S|S].
  - apply (step_past _ _ _ _ ST). apply IH. eauto.
  - apply seen_pair in S. steps ST; cbn in S; intuition (try discriminate).
Qed.
Lemma app_split {A} (l r a b : list A) x : l ++ r = a ++ x :: b -> (exists b', l = a ++ x :: b' /\ b = b' ++ r) \/ (exists a', r = a' ++ x :: b /\ a = l ++ a').
Proof.
  revert a. induction l as [|y l IH]; intros a E; [right; exists a; auto|]. destruct a as [|z a]; cbn in E; injection E as -> E.
  - left. exists l. auto.
  - destruct (IH a E) as [(b' & -> & ->)|(a' & -> & ->)]; [left; exists b'; auto|right; exists a'; auto].
Qed.
(** an execution can be cut at an observation that is the only one of its step *)
Lemma cut_at s0 es s tr : dexec s0 es s tr -> forall a n b, tr = a ++ (n, YStop) :: b -> exists es1 s1 es2, dexec s0 es1 s1 a /\ dexec (with_running false s1) es2 s b.
Proof.
  intros X. induction X as [|es s tr e s' o X IH ST]; intros a n b E; [destruct a; discriminate E|].
  apply app_split in E as [(b' & E & ->)|(a' & E & ->)].
  - destruct (IH _ _ _ E) as (es1 & s1 & es2 & X1 & X2). exists es1, s1, (es2 ++ [e]). split; [exact X1|]. exact (dexec_snoc _ _ _ _ _ _ _ X2 ST).
  - assert (S : In YStop o). { apply (seen_pair _ (x_now s)). rewrite E. exists n. apply in_or_app. right. left. reflexivity. }
    assert (K : e = DStop). { steps ST; cbn in S; intuition (try discriminate). }
    subst e. cbn in ST. injection ST as <- <-. cbn in E. destruct a' as [|y a']; [|destruct a'; discriminate E]. injection E as _ <-.
    exists es, s, []. rewrite app_nil_r. split; [exact X|constructor].
Qed.
Lemma stop_one_more es s a n b : dexec dtls0 es s (a ++ (n, YStop) :: b) -> (exists sv p ad, seen (YRead sv p ad) a) -> (length (reads b) <= 1)%nat.
Proof.
  intros X R. destruct (cut_at _ _ _ _ X _ _ _ eq_refl) as (es1 & s1 & es2 & X1 & X2). pose proof (exec_past _ _ _ X1 R) as P.
  destruct (late _ _ _ _ X2 P eq_refl) as (_ & _ & H). cbn in H. destruct (x_th s1); cbn in H; lia.
Qed.
Definition live (th : thread) : bool := match th with TTest | TRecv _ | TGot _ _ _ | TPass _ _ _ => true | _ => false end.
Lemma not_stopped es s tr : dexec dtls0 es s tr -> ~ In DStop es -> live (x_th s) = true -> x_running s = true.
Proof.
  intros X. induction X as [|es s tr e s' o X IH ST]; intros N L; [discriminate L|].
  assert (N1 : ~ In DStop es) by (intros J; apply N, in_or_app; auto). assert (N2 : e <> DStop) by (intros ->; apply N, in_or_app; right; left; reflexivity).
  specialize (IH N1). steps ST; cbn in *; rewrite ?T in *; cbn in *; try discriminate L; auto; congruence.
Qed.
Lemma ends_by es s tr : dexec dtls0 es s tr -> seen YEnded tr -> In DStop es \/ In (DRecvErr false) es \/ In DOpenFailed es.
Proof.
  intros X. induction X as [|es s tr e s' o X IH ST]; intros S; [destruct S as [n []]|].
  rewrite !in_app_iff. apply seen_app in S as [S|S]; [destruct (IH S) as [H|[H|H]]; auto|]. apply seen_pair in S.
  destruct (in_dec (fun x y : bool => Bool.bool_dec x y) true (map (fun v => match v with DStop => true | _ => false end) es)) as [J|J].
  - apply in_map_iff in J as (v & E & J). destruct v; try discriminate E. auto.
  - assert (N : ~ In DStop es) by (intros H; apply J, in_map_iff; exists DStop; auto).
    pose proof (not_stopped _ _ _ X N) as L. steps ST; cbn in *; rewrite ?T in *; try (destruct S as [S|S]; [discriminate S|]); try contradiction; auto; try (destruct S as [S|S]; [discriminate S|contradiction]); try congruence.
    discriminate (L eq_refl).
Qed.

(** ** C100 *)
Definition used (tr : list (Z * dobs)) (n : nat) : Prop := (exists u, (u < n)%nat /\ seen (YCall u) tr) \/ seen (YListen (Ok tt)) tr.
Record cinv (s : dtls) (tr : list (Z * dobs)) : Prop := mkCI {
  k_sock : x_sock s = true <-> opened tr;
  k_wait : forall t dl, nth_error (x_waits s) t = Some (WWait dl) -> exists m, In (m, YCall t) tr /\ dl = m + 10000;
  k_woken : forall t dl, nth_error (x_waits s) t = Some (WWoken dl) -> (exists m, In (m, YCall t) tr /\ dl = m + 10000) /\ opened tr;
  k_queue : In QSet (x_queue s) -> opened tr;
  k_th : match x_th s with TSignal => opened tr | _ => True end;
  k_used : started s = true -> used tr (length (x_waits s));
  k_new : forall t dl, nth_error (x_waits s) t = Some (WWait dl) -> x_sock s = true -> x_th s = TSignal \/ In QSet (x_queue s);
  k_fresh : x_th s = TNew -> x_sock s = false /\ forall t dl, nth_error (x_waits s) t <> Some (WWait dl) }.
Lemma opened_app a b : opened (a ++ b) <-> opened a \/ opened b.
Proof. unfold opened. setoid_rewrite seen_app. split; [intros [sv [H|H]]; eauto|intros [[sv H]|[sv H]]; eauto]. Qed.
Lemma opened_none n os : (forall sv, ~ In (YOpened sv) os) -> ~ opened (map (pair n) os).
Proof. intros N [sv H]. apply seen_pair in H. exact (N sv H). Qed.
Lemma used_app a b n m : used a n -> (n <= m)%nat -> used (a ++ b) m.
Proof. intros [(u & L & H)|H] LE; [left; exists u; split; [lia|apply seen_app; auto]|right; apply seen_app; auto]. Qed.
Lemma cinv_grow s tr s' n os : cinv s tr -> x_sock s' = x_sock s -> (forall sv, ~ In (YOpened sv) os) ->
  (forall t dl, nth_error (x_waits s') t = Some (WWait dl) -> nth_error (x_waits s) t = Some (WWait dl)) ->
  (forall t dl, nth_error (x_waits s') t = Some (WWoken dl) -> nth_error (x_waits s) t = Some (WWoken dl)) ->
  (length (x_waits s) <= length (x_waits s'))%nat -> (In QSet (x_queue s') <-> In QSet (x_queue s)) ->
  (x_th s' = TSignal <-> x_th s = TSignal) -> (started s' = true -> started s = true) -> (x_th s' = TNew -> x_th s = TNew) -> cinv s' (tr ++ map (pair n) os).
Proof.
  intros [A B C D E F G H] S NO W1 W2 L Q T ST TN. constructor.
  - rewrite S, A, opened_app. split; [auto|intros [K|K]; [exact K|destruct (opened_none n os NO K)]].
  - intros t dl K. destruct (B t dl (W1 _ _ K)) as (m & J & M). exists m. split; [apply in_or_app; auto|exact M].
  - intros t dl K. destruct (C t dl (W2 _ _ K)) as [(m & J & M) O]. split; [exists m; split; [apply in_or_app; auto|exact M]|apply opened_app; auto].
  - intros K. apply opened_app. left. apply D, Q, K.
  - destruct (x_th s') eqn:K; auto. apply opened_app. left. rewrite (proj1 T eq_refl) in E. exact E.
  - intros K. eapply used_app; [exact (F (ST K))|exact L].
  - intros t dl K O. rewrite S in O. destruct (G t dl (W1 _ _ K) O) as [J|J]; [left; apply T; exact J|right; apply Q; exact J].
  - intros K. destruct (H (TN K)) as [H1 H2]. split; [congruence|]. intros t dl J. exact (H2 t dl (W1 _ _ J)).
Qed.
Lemma put_length t x l : length (put t x l) = length l.
Proof. revert t. induction l as [|y l IH]; intros [|t]; cbn; auto. Qed.
Lemma put_nth t x l u : nth_error (put t x l) u = if Nat.eqb u t then match nth_error l t with Some _ => Some x | None => None end else nth_error l u.
Proof. revert t u. induction l as [|y l IH]; intros [|t] [|u]; cbn; try reflexivity; [destruct (Nat.eqb u t); reflexivity|apply IH]. Qed.
Lemma put_done t l u w : nth_error (put t WDone l) u = Some w -> w <> WDone -> nth_error l u = Some w.
Proof. rewrite put_nth. destruct (Nat.eqb u t); [|auto]. destruct (nth_error l t); [|discriminate]. intros [= <-] N. destruct (N eq_refl). Qed.
Lemma snoc_nth l (x w : waiting) u : nth_error (l ++ [x]) u = Some w -> nth_error l u = Some w \/ u = length l /\ w = x.
Proof.
  intros H. destruct (Nat.lt_ge_cases u (length l)) as [L|L]; [left; now rewrite nth_error_app1 in H|]. rewrite nth_error_app2 in H by exact L.
  destruct (u - length l)%nat as [|k] eqn:K; [right; split; [lia|cbn in H; congruence]|]. destruct k; discriminate H.
Qed.
Lemma snoc_done l u w : nth_error (l ++ [WDone]) u = Some w -> w <> WDone -> nth_error l u = Some w.
Proof. intros H N. destruct (snoc_nth _ _ _ _ H) as [K|[_ ->]]; [exact K|destruct (N eq_refl)]. Qed.
Lemma wake_nth l u w : nth_error (map (fun w => match w with WWait dl => WWoken dl | w => w end) l) u = Some w ->
  match w with WWait _ => False | WWoken dl => nth_error l u = Some (WWait dl) \/ nth_error l u = Some (WWoken dl) | WDone => True end.
Proof. rewrite nth_error_map. destruct (nth_error l u) as [[]|]; cbn; intros [= <-]; auto. Qed.
Lemma cinv_plain s tr s' n os : cinv s tr -> x_sock s' = x_sock s -> (forall sv, ~ In (YOpened sv) os) -> x_waits s' = x_waits s -> (In QSet (x_queue s') <-> In QSet (x_queue s)) ->
  (x_th s' = TSignal <-> x_th s = TSignal) -> (started s' = true -> started s = true) -> (x_th s' = TNew -> x_th s = TNew) -> cinv s' (tr ++ map (pair n) os).
Proof. intros I S N W Q A B C. apply (cinv_grow s); auto; rewrite W; auto. Qed.
Lemma new_th s : started s = false -> x_th s = TNew.
Proof. unfold started. destruct (x_th s); congruence. Qed.
Lemma cinv_step s tr e s' o : cinv s tr -> dstep s e = Some (s', o) -> cinv s' (tr ++ map (pair (x_now s)) o).
Proof.
  intros I E. destruct e; cbn [dstep] in E; cbv zeta in E.
  - change (started (with_event false s)) with (started s) in E. change (x_waits (with_event false s)) with (x_waits s) in E. destruct (started s) eqn:ST.
    + injection E as <- <-. apply (cinv_grow s); cbn; auto; try tauto; [intuition discriminate| | |rewrite app_length; cbn; lia].
      * intros u dl K. eapply snoc_done; [exact K|discriminate].
      * intros u dl K. eapply snoc_done; [exact K|discriminate].
    + apply new_th in ST. injection E as <- <-. destruct I as [A B C D E0 F G H]. destruct (H ST) as [H1 H2]. constructor; cbn.
      * rewrite H1, opened_app. split; [discriminate|]. intros [K|[sv [n [K|[]]]]]; [apply A in K; congruence|discriminate K].
      * intros t dl K. destruct (snoc_nth _ _ _ _ K) as [K'|[-> [= ->]]]; [destruct (H2 _ _ K')|]. exists (x_now s). split; [apply in_or_app; right; left; reflexivity|reflexivity].
      * intros t dl K. destruct (snoc_nth _ _ _ _ K) as [K'|[_ K']]; [|discriminate K']. destruct (C t dl K') as [(m & J & M) O]. split; [exists m; split; [apply in_or_app; auto|exact M]|apply opened_app; auto].
      * intros K. apply opened_app. auto.
      * exact Logic.I.
      * intros _. left. exists (length (x_waits s)). split; [rewrite app_length; cbn; lia|]. exists (x_now s). apply in_or_app. right. left. reflexivity.
      * intros t dl _ K. congruence.
      * discriminate.
  - match type of E with context [started ?x] => change (started x) with (started s) in E end. destruct (started s) eqn:ST.
    + injection E as <- <-. apply (cinv_plain s); cbn; auto; try tauto. intuition discriminate.
    + apply new_th in ST. injection E as <- <-. destruct I as [A B C D E0 F G H]. destruct (H ST) as [H1 H2]. constructor; cbn.
      * rewrite H1, opened_app. split; [discriminate|]. intros [K|[sv [n [K|[]]]]]; [apply A in K; congruence|discriminate K].
      * intros t dl K. destruct (H2 _ _ K).
      * intros t dl K. destruct (C t dl K) as [(m & J & M) O]. split; [exists m; split; [apply in_or_app; auto|exact M]|apply opened_app; auto].
      * intros K. apply opened_app. auto.
      * exact Logic.I.
      * intros _. right. exists (x_now s). apply in_or_app. right. left. reflexivity.
      * intros t dl K. destruct (H2 _ _ K).
      * discriminate.
  - destruct (x_th s) eqn:T; try discriminate E. injection E as <- <-. destruct I as [A B C D E0 F G H].
    assert (O : opened (tr ++ map (pair (x_now s)) [YOpened (x_server s)])) by (apply opened_app; right; exists (x_server s); apply seen_pair; left; reflexivity). constructor; cbn; auto; try tauto.
    + intros t dl K. destruct (B t dl K) as (m & J & M). exists m. split; [apply in_or_app; auto|exact M].
    + intros t dl K. destruct (C t dl K) as [(m & J & M) _]. split; [exists m; split; [apply in_or_app; auto|exact M]|exact O].
    + intros _. eapply used_app; [|apply le_n]. apply F. unfold started. now rewrite T.
    + discriminate.
  - destruct (x_th s) eqn:T; try discriminate E. injection E as <- <-. apply (cinv_plain s); cbn; auto; try tauto; try (rewrite T; intuition discriminate); try discriminate. intuition discriminate. unfold started. now rewrite T.
  - unfold dthread in E. destruct (x_th s) eqn:T; try discriminate E.
    + injection E as <- <-. destruct I as [A B C D E0 F G H]. rewrite T in E0. constructor; cbn; rewrite ?app_nil_r; auto.
      * intros _. apply F. unfold started. now rewrite T.
      * intros t dl _ _. right. apply in_or_app. right. left. reflexivity.
      * discriminate.
    + injection E as <- <-. apply (cinv_plain s); cbn; auto; try tauto; try (rewrite T; intuition discriminate); try discriminate. unfold started. now rewrite T.
    + destruct (x_running s); injection E as <- <-; apply (cinv_plain s); cbn; auto; try tauto; try (rewrite T; intuition discriminate); try discriminate; try (intuition discriminate); unfold started; now rewrite T.
    + injection E as <- <-. apply (cinv_plain s); cbn; auto; try tauto; try (rewrite T; destruct (x_cb s); intuition discriminate). unfold started. now rewrite T.
    + injection E as <- <-. apply (cinv_plain s); cbn; auto; try tauto; try (rewrite T; intuition discriminate); try discriminate.
      * rewrite in_app_iff. cbn. intuition discriminate.
      * unfold started. now rewrite T.
  - destruct (x_th s) eqn:T; try discriminate E. injection E as <- <-. apply (cinv_plain s); cbn; auto; try tauto; try (rewrite T; intuition discriminate); try discriminate; try (intuition discriminate). unfold started. now rewrite T.
  - destruct (x_th s) eqn:T; try discriminate E. destruct attr; injection E as <- <-; apply (cinv_plain s); cbn; auto; try tauto; try (rewrite T; intuition discriminate); try discriminate; try (intuition discriminate); unfold started; now rewrite T.
  - unfold dloop in E. destruct (x_queue s) as [|[|[c|] p a] q] eqn:Q; try discriminate E; injection E as <- <-.
    + destruct I as [A B C D E0 F G H]. rewrite Q in D. pose proof (D (or_introl eq_refl)) as O. constructor; cbn; rewrite ?app_nil_r, ?map_length; auto.
      * intros t dl K. destruct (wake_nth _ _ _ K).
      * intros t dl K. split; [|exact O]. destruct (wake_nth _ _ _ K) as [K'|K']; [exact (B _ _ K')|exact (proj1 (C _ _ K'))].
      * intros t dl K. destruct (wake_nth _ _ _ K).
      * intros K. destruct (H K) as [H1 H2]. split; [exact H1|]. intros t dl J. exact (wake_nth _ _ _ J).
    + apply (cinv_plain s); cbn; auto; try tauto; [intuition discriminate|]. rewrite Q. cbn. intuition discriminate.
    + apply (cinv_plain s); cbn; auto; try tauto; [intuition discriminate|]. rewrite Q. cbn. intuition discriminate.
  - injection E as <- <-. apply (cinv_plain s); cbn; auto; try tauto. intuition discriminate.
  - injection E as <- <-. apply (cinv_plain s); cbn; auto; try tauto. intuition discriminate.
  - destruct (x_sock s) eqn:S; [destruct r|]; injection E as <- <-; (apply (cinv_plain s); cbn; auto; try tauto; intuition discriminate).
  - destruct (nth_error (x_waits s) t) as [[]|] eqn:W; try discriminate E. injection E as <- <-. apply (cinv_grow s); cbn; auto; try tauto; [intuition discriminate| | |rewrite put_length; lia]; intros u dl' K; eapply put_done; try exact K; discriminate.
  - destruct (nth_error (x_waits s) t) as [[]|] eqn:W; try discriminate E; destruct (_ <=? _) in E; try discriminate E; injection E as <- <-;
      (apply (cinv_grow s); cbn; auto; try tauto; [intuition discriminate| | |rewrite put_length; lia]; intros u dl' K; eapply put_done; try exact K; discriminate).
  - destruct (0 <=? dt); [|discriminate E]. injection E as <- <-. apply (cinv_plain s); cbn; auto; tauto.
Qed.
Lemma exec_cinv es s tr : dexec dtls0 es s tr -> cinv s tr.
Proof.
  intros X. induction X as [|es s tr e s' o X IH ST]; [|exact (cinv_step _ _ _ _ _ IH ST)].
  constructor; cbn; auto; try discriminate; try (intros [|t]; discriminate); try contradiction.
  - split; [discriminate|intros [sv [n []]]].
  - split; [reflexivity|]. intros [|t]; discriminate.
Qed.
(** every observation: what held before it *)
Lemma emits (P : list (Z * dobs) -> Z -> dobs -> Prop) :
  (forall es s tr e s' o o1 x o2, dexec dtls0 es s tr -> cinv s tr -> dstep s e = Some (s', o) -> o = o1 ++ x :: o2 -> P (tr ++ map (pair (x_now s)) o1) (x_now s) x) ->
  forall es s tr a n x b, dexec dtls0 es s tr -> tr = a ++ (n, x) :: b -> P a n x.
Proof.
  intros H es s tr a n x b X. revert a n x b. induction X as [|es s tr e s' o X IH ST]; intros a n x b E; [destruct a; discriminate E|].
  apply app_split in E as [(b' & E & ->)|(a' & E & ->)]; [exact (IH _ _ _ _ E)|].
  assert (K : exists o1 o2, a' = map (pair (x_now s)) o1 /\ n = x_now s /\ o = o1 ++ x :: o2).
  { clear -E. revert a' E. induction o as [|y o IH]; intros a' E; [destruct a'; discriminate E|]. destruct a' as [|z a']; cbn in E.
    - injection E as <- <- _. exists [], o. auto.
    - injection E as <- E. destruct (IH a' E) as (o1 & o2 & -> & N & ->). exists (y :: o1), o2. auto. }
  destruct K as (o1 & o2 & -> & -> & ->). eapply H; [exact X|exact (exec_cinv _ _ _ X)|exact ST|reflexivity].
Qed.

Lemma single {A} (o1 o2 : list A) x y : [y] = o1 ++ x :: o2 -> o1 = [] /\ x = y.
Proof. destruct o1 as [|z o1]; cbn; [intros [= <-]; auto|]. intros [= _ E]. destruct o1; discriminate E. Qed.
Lemma double {A} (o1 o2 : list A) x y z : [y; z] = o1 ++ x :: o2 -> o1 = [] /\ x = y \/ o1 = [y] /\ x = z.
Proof. destruct o1 as [|u o1]; cbn; [intros [= <-]; auto|]. intros [= <- E]. apply single in E as [-> ->]. auto. Qed.
Definition said (a : list (Z * dobs)) (n : Z) (x : dobs) : Prop :=
  match x with
  | YReady t => opened a /\ seen (YCall t) a
  | YTimeout t => exists m, In (m, YCall t) a /\ m + 10000 <= n
  | YRuntime t => (exists u, u <> t /\ seen (YCall u) a) \/ seen (YListen (Ok tt)) a
  | YListen (Err _) => (exists u, seen (YCall u) a) \/ seen (YListen (Ok tt)) a
  | YWrite m => opened a
  | YSend m (Ok _) => opened a -> exists a', a = a' ++ [(n, YWrite m)]
  | _ => True
  end.
Lemma said_step s tr e s' o o1 x o2 : cinv s tr -> dstep s e = Some (s', o) -> o = o1 ++ x :: o2 -> said (tr ++ map (pair (x_now s)) o1) (x_now s) x.
Proof.
  intros I E. pose proof (k_used _ _ I) as US. destruct e; cbn [dstep] in E; cbv zeta in E.
  - change (started (with_event false s)) with (started s) in E. change (x_waits (with_event false s)) with (x_waits s) in E. destruct (started s) eqn:ST; injection E as <- <-; intros E.
    + apply double in E as [[-> ->]|[-> ->]]; cbn; [exact Logic.I|]. destruct (US eq_refl) as [(u & L & U)|U].
      * left. exists u. split; [lia|apply seen_app; auto].
      * right. apply seen_app. auto.
    + apply single in E as [-> ->]. exact Logic.I.
  - match type of E with context [started ?x] => change (started x) with (started s) in E end. destruct (started s) eqn:ST; injection E as <- <-; intros E; apply single in E as [-> ->]; cbn; [|exact Logic.I].
    rewrite app_nil_r. destruct (US eq_refl) as [(u & L & U)|U]; eauto.
  - destruct (x_th s); try discriminate E. injection E as <- <-. intros E. apply single in E as [-> ->]. exact Logic.I.
  - destruct (x_th s); try discriminate E. injection E as <- <-. intros E. apply single in E as [-> ->]. exact Logic.I.
  - unfold dthread in E. destruct (x_th s); try discriminate E; try (injection E as <- <-; intros E; destruct o1; discriminate E).
    destruct (x_running s); injection E as <- <-; intros E; [destruct o1; discriminate E|]. apply single in E as [-> ->]. exact Logic.I.
  - destruct (x_th s); try discriminate E. injection E as <- <-. intros E. apply single in E as [-> ->]. exact Logic.I.
  - destruct (x_th s); try discriminate E. destruct attr; injection E as <- <-; intros E; [destruct o1; discriminate E|]. apply single in E as [-> ->]. exact Logic.I.
  - unfold dloop in E. destruct (x_queue s) as [|[|[c|] p a] q]; try discriminate E; injection E as <- <-; intros E; [destruct o1; discriminate E| |]; apply single in E as [-> ->]; exact Logic.I.
  - injection E as <- <-. intros E. apply single in E as [-> ->]. exact Logic.I.
  - injection E as <- <-. intros E. apply single in E as [-> ->]. exact Logic.I.
  - destruct (x_sock s) eqn:S.
    + assert (O : opened tr) by (apply (k_sock _ _ I); exact S). destruct r as [[]|x0]; injection E as <- <-; intros E.
      * apply double in E as [[-> ->]|[-> ->]]; cbn; [rewrite app_nil_r; exact O|]. intros _. exists tr. reflexivity.
      * apply single in E as [-> ->]. exact Logic.I.
    + injection E as <- <-. intros E. apply single in E as [-> ->]. cbn. rewrite app_nil_r. intros O. apply (k_sock _ _ I) in O. congruence.
  - destruct (nth_error (x_waits s) t) as [[]|] eqn:W; try discriminate E. injection E as <- <-. intros E. apply single in E as [-> ->]. cbn. rewrite app_nil_r.
    destruct (k_woken _ _ I _ _ W) as [(m & J & _) O]. split; [exact O|]. exists m. exact J.
  - destruct (nth_error (x_waits s) t) as [[dl|dl|]|] eqn:W; try discriminate E; destruct (Z.leb_spec dl (x_now s)) as [L|L]; try discriminate E; injection E as <- <-; intros E; apply single in E as [-> ->]; cbn; rewrite app_nil_r.
    + destruct (k_wait _ _ I _ _ W) as (m & J & ->). eauto.
    + destruct (k_woken _ _ I _ _ W) as [(m & J & ->) _]. eauto.
  - destruct (0 <=? dt); [|discriminate E]. injection E as <- <-. intros E. destruct o1; discriminate E.
Qed.
Lemma story es s a n x b : dexec dtls0 es s (a ++ (n, x) :: b) -> said a n x.
Proof. intros X. eapply (emits said); [|exact X|reflexivity]. intros. eapply said_step; eassumption. Qed.

(** a connect that waits although the socket is there goes on *)
Lemma waits_kind es s tr t : dexec dtls0 es s tr -> seen (YCall t) tr -> ~ seen (YReady t) tr -> ~ seen (YTimeout t) tr -> ~ seen (YRuntime t) tr ->
  exists dl, nth_error (x_waits s) t = Some (WWait dl) \/ nth_error (x_waits s) t = Some (WWoken dl).
Proof.
  intros X. induction X as [|es s tr e s' o X IH ST]; intros C N1 N2 N3; [destruct C as [n []]|].
  rewrite seen_app, seen_pair in *. destruct C as [C|C].
  - destruct IH as [dl W]; try tauto. assert (K : forall u, (u = t -> False) -> nth_error (put u WDone (x_waits s)) t = nth_error (x_waits s) t).
    { intros u N. rewrite put_nth. destruct (Nat.eqb_spec t u) as [->|_]; [destruct (N eq_refl)|reflexivity]. }
    assert (L : (t < length (x_waits s))%nat) by (apply nth_error_Some; destruct W as [W|W]; congruence).
    destruct e; cbn [dstep] in ST; cbv zeta in ST.
    + change (started (with_event false s)) with (started s) in ST. change (x_waits (with_event false s)) with (x_waits s) in ST. destruct (started s); injection ST as <- <-; cbn; exists dl; rewrite nth_error_app1 by exact L; exact W.
    + match type of ST with context [started ?x] => change (started x) with (started s) in ST end. destruct (started s); injection ST as <- <-; eauto.
    + destruct (x_th s); try discriminate ST. injection ST as <- <-. eauto.
    + destruct (x_th s); try discriminate ST. injection ST as <- <-. eauto.
    + unfold dthread in ST. destruct (x_th s); try discriminate ST; try (injection ST as <- <-; eauto; fail). destruct (x_running s); injection ST as <- <-; eauto.
    + destruct (x_th s); try discriminate ST. injection ST as <- <-. eauto.
    + destruct (x_th s); try discriminate ST. destruct attr; injection ST as <- <-; eauto.
    + unfold dloop in ST. destruct (x_queue s) as [|[|[c|] p a] q]; try discriminate ST; injection ST as <- <-; eauto.
      cbn. exists dl. right. rewrite nth_error_map. destruct W as [-> | ->]; reflexivity.
    + injection ST as <- <-. eauto.
    + injection ST as <- <-. eauto.
    + destruct (x_sock s); [destruct r|]; injection ST as <- <-; eauto.
    + destruct (nth_error (x_waits s) t0) as [[]|] eqn:W0; try discriminate ST. injection ST as <- <-. exists dl. cbn. rewrite K; [exact W|]. intros ->. apply N1. right. left. reflexivity.
    + destruct (nth_error (x_waits s) t0) as [[]|] eqn:W0; try discriminate ST; destruct (_ <=? _) in ST; try discriminate ST; injection ST as <- <-; exists dl; cbn; (rewrite K; [exact W|]); intros ->; apply N2; right; left; reflexivity.
    + destruct (0 <=? dt); [|discriminate ST]. injection ST as <- <-. eauto.
  - assert (E : e = DConnect). { steps ST; cbn in C; intuition (try discriminate). }
    subst e. cbn [dstep] in ST. cbv zeta in ST. change (started (with_event false s)) with (started s) in ST. change (x_waits (with_event false s)) with (x_waits s) in ST. destruct (started s); injection ST as <- <-.
    + exfalso. apply N3. right. cbn in C. destruct C as [C|[C|[]]]; [injection C as <-|discriminate C]. right. left. reflexivity.
    + cbn in C. destruct C as [C|[]]. injection C as <-. cbn. exists (x_now s + 10000). left. rewrite nth_error_app2, Nat.sub_diag by lia. reflexivity.
Qed.
Lemma drain_set q : forall s t dl, x_queue s = q -> In QSet q -> nth_error (x_waits s) t = Some (WWait dl) -> exists es s' tr', going_on es /\ dexec s es s' tr' /\ nth_error (x_waits s') t = Some (WWoken dl).
Proof.
  induction q as [|i q IH]; intros s t dl Q J W; [destruct J|].
  pose proof (eq_refl : dstep s DLoop = dloop s) as ST. unfold dloop in ST. rewrite Q in ST.
  assert (DONE : forall s1 o, dstep s DLoop = Some (s1, o) -> (exists es s' tr', going_on es /\ dexec s1 es s' tr' /\ nth_error (x_waits s') t = Some (WWoken dl)) ->
    exists es s' tr', going_on es /\ dexec s es s' tr' /\ nth_error (x_waits s') t = Some (WWoken dl)).
  { intros s1 o H (es & s' & tr' & G & X & R). exists (DLoop :: es), s'. eexists. split; [intros e [<-|K]; [auto|exact (G e K)]|]. split; [exact (dexec_cons _ _ _ _ _ _ _ H X)|exact R]. }
  destruct i as [|[c|] p a].
  - eapply DONE; [exact ST|]. exists []. eexists _, _. split; [intros e []|]. split; [apply dexec_nil|]. cbn. rewrite nth_error_map, W. reflexivity.
  - eapply DONE; [exact ST|]. apply IH; [reflexivity| |exact W]. destruct J as [J|J]; [discriminate J|exact J].
  - eapply DONE; [exact ST|]. apply IH; [reflexivity| |exact W]. destruct J as [J|J]; [discriminate J|exact J].
Qed.
Lemma connect_goes_on es s tr t : dexec dtls0 es s tr -> opened tr -> seen (YCall t) tr -> ~ seen (YReady t) tr -> ~ seen (YTimeout t) tr -> ~ seen (YRuntime t) tr ->
  exists es' s' tr', going_on es' /\ dexec s (es' ++ [DResume t]) s' tr' /\ seen (YReady t) tr'.
Proof.
  intros X O C N1 N2 N3. destruct (waits_kind _ _ _ _ X C N1 N2 N3) as [dl W]. pose proof (exec_cinv _ _ _ X) as I.
  assert (S : x_sock s = true) by (apply (k_sock _ _ I); exact O).
  assert (FIN : forall s dl, nth_error (x_waits s) t = Some (WWoken dl) -> exists s' , dstep s (DResume t) = Some (s', [YReady t])) by (intros s1 dl1 H; cbn; rewrite H; eauto).
  assert (K : exists es1 s1 tr1, going_on es1 /\ dexec s es1 s1 tr1 /\ nth_error (x_waits s1) t = Some (WWoken dl)).
  { destruct W as [W|W]; [|exists [], s, []; split; [intros e []|split; [apply dexec_nil|exact W]]]. destruct (k_new _ _ I _ _ W S) as [T|Q].
    - pose proof (eq_refl : dstep s DThread = dthread s) as ST. unfold dthread in ST. rewrite T in ST.
      edestruct drain_set as (es1 & s1 & tr1 & G & X1 & W1); [reflexivity| | |].
      + instantiate (1 := with_th TFlag (with_queue (x_queue s ++ [QSet]) s)). cbn. apply in_or_app. right. left. reflexivity.
      + exact W.
      + exists (DThread :: es1), s1, tr1. split; [intros e [<-|J]; [auto|exact (G e J)]|]. split; [|exact W1]. change tr1 with (map (pair (x_now s)) [] ++ tr1). exact (dexec_cons _ _ _ _ _ _ _ ST X1).
    - exact (drain_set _ _ _ _ eq_refl Q W). }
  destruct K as (es1 & s1 & tr1 & G & X1 & W1). destruct (FIN _ _ W1) as [s2 ST]. exists es1, s2, (tr1 ++ map (pair (x_now s1)) [YReady t]). split; [exact G|]. split; [exact (dexec_snoc _ _ _ _ _ _ _ X1 ST)|].
  apply seen_app. right. apply seen_pair. left. reflexivity.
Qed.
