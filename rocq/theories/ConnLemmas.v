(** Lists, dictionaries and traces used for the state machines. *)
From Coq Require Import String ZArith List Bool Lia ZifyBool ZifyNat.
From Verif Require Import Py Schema Codec Waiter Conn SpecConn.
Import ListNotations.
Open Scope list_scope.
Open Scope Z_scope.

(** ** upd *)
Lemma upd_length {A} i (x : A) l : length (upd i x l) = length l.
Proof. revert i. induction l as [|y l IH]; intros [|i]; cbn; auto. Qed.
Lemma nth_upd {A} i (x : A) l j : nth_error (upd i x l) j = if Nat.eqb i j then (match nth_error l i with Some _ => Some x | None => None end) else nth_error l j.
Proof. revert i j. induction l as [|y l IH]; intros [|i] [|j]; cbn; try reflexivity; [destruct (Nat.eqb i j); reflexivity|apply IH]. Qed.
Lemma nth_upd_same {A} i (x y : A) l : nth_error l i = Some y -> nth_error (upd i x l) i = Some x.
Proof. intros H. rewrite nth_upd, Nat.eqb_refl, H. reflexivity. Qed.
Lemma nth_upd_other {A} i j (x : A) l : i <> j -> nth_error (upd i x l) j = nth_error l j.
Proof. intros H. rewrite nth_upd. destruct (Nat.eqb_spec i j); [contradiction|reflexivity]. Qed.
Lemma nth_snoc {A} (l : list A) x j : nth_error (l ++ [x]) j = if Nat.eqb j (length l) then Some x else nth_error l j.
Proof.
  destruct (Nat.eqb_spec j (length l)) as [->|N]; [rewrite nth_error_app2, Nat.sub_diag by lia; reflexivity|].
  destruct (Nat.lt_ge_cases j (length l)); [apply nth_error_app1; assumption|].
  rewrite (proj2 (nth_error_None _ _)) by (rewrite app_length; cbn; lia). symmetry. apply nth_error_None. assumption.
Qed.
Lemma nth_lt {A} (l : list A) i x : nth_error l i = Some x -> (i < length l)%nat.
Proof. intros H. apply nth_error_Some. congruence. Qed.

(** ** dictionaries with integer keys *)
Lemma dget_in {V} k (d : list (Z * V)) v : dget Z.eqb k d = Some v -> In (k, v) d.
Proof. induction d as [|[k' v'] d IH]; cbn; [discriminate|]. destruct (Z.eqb_spec k k') as [->|]; [intros [= ->]; auto|auto]. Qed.
Lemma in_dget {V} k (d : list (Z * V)) v : NoDup (map fst d) -> In (k, v) d -> dget Z.eqb k d = Some v.
Proof.
  induction d as [|[k' v'] d IH]; cbn; [contradiction|]. intros N [E|I]; inversion N; subst.
  - injection E as -> ->. rewrite Z.eqb_refl. reflexivity.
  - destruct (Z.eqb_spec k k') as [->|]; [|auto]. elim H1. apply (in_map fst) in I. exact I.
Qed.
Lemma dget_none {V} k (d : list (Z * V)) : dget Z.eqb k d = None <-> ~ In k (map fst d).
Proof.
  induction d as [|[k' v'] d IH]; cbn; [tauto|]. destruct (Z.eqb_spec k k') as [->|]; [intuition discriminate|]. rewrite IH. intuition congruence.
Qed.
Lemma in_ddel {V} k (d : list (Z * V)) x : In x (ddel Z.eqb k d) <-> In x d /\ fst x <> k.
Proof.
  induction d as [|[k' v'] d IH]; cbn; [tauto|]. destruct (Z.eqb_spec k k') as [->|N].
  - rewrite IH. split; [tauto|]. intros [[<-|I] F]; [cbn in F; congruence|tauto].
  - cbn. rewrite IH. split; [intros [<-|[I F]]; cbn; auto|tauto].
Qed.
Lemma dget_ddel_same {V} k (d : list (Z * V)) : dget Z.eqb k (ddel Z.eqb k d) = None.
Proof. apply dget_none. intros I. apply in_map_iff in I as (x & E & I). apply in_ddel in I as [_ F]. contradiction. Qed.
Lemma dget_ddel_other {V} k j (d : list (Z * V)) : j <> k -> dget Z.eqb j (ddel Z.eqb k d) = dget Z.eqb j d.
Proof.
  intros N. induction d as [|[k' v'] d IH]; cbn; [reflexivity|]. destruct (Z.eqb_spec k k') as [->|].
  - rewrite IH. destruct (Z.eqb_spec j k'); [contradiction|reflexivity].
  - cbn. rewrite IH. reflexivity.
Qed.
Lemma nodup_ddel {V W} (f : Z * V -> W) k (d : list (Z * V)) : NoDup (map f d) -> NoDup (map f (ddel Z.eqb k d)).
Proof.
  induction d as [|[k' v'] d IH]; cbn; intros N; [constructor|]. inversion N; subst. destruct (Z.eqb k k'); [auto|]. cbn. constructor; [|auto].
  intros I. apply in_map_iff in I as (x & E & I). apply in_ddel in I as [I _]. apply H1. rewrite <- E. apply in_map. exact I.
Qed.
Lemma ddel_noop {V} k (d : list (Z * V)) : dget Z.eqb k d = None -> ddel Z.eqb k d = d.
Proof. induction d as [|[k' v'] d IH]; cbn; [reflexivity|]. destruct (Z.eqb k k'); [discriminate|]. intros H. rewrite IH; auto. Qed.
Lemma dset_fresh {V} k (v : V) d : dget Z.eqb k d = None -> dset Z.eqb k v d = d ++ [(k, v)].
Proof. induction d as [|[k' v'] d IH]; cbn; [reflexivity|]. destruct (Z.eqb k k'); [discriminate|]. intros H. rewrite IH; auto. Qed.
Lemma dmem_false {V} k (d : list (Z * V)) : dmem Z.eqb k d = false -> dget Z.eqb k d = None.
Proof. unfold dmem. destruct (dget Z.eqb k d); [discriminate|reflexivity]. Qed.
Lemma dmem_true {V} k (d : list (Z * V)) : dmem Z.eqb k d = true -> exists v, dget Z.eqb k d = Some v.
Proof. unfold dmem. destruct (dget Z.eqb k d) as [v|]; [eauto|discriminate]. Qed.
Lemma nodup_snoc {A} (l : list A) x : NoDup l -> ~ In x l -> NoDup (l ++ [x]).
Proof.
  induction l as [|y l IH]; cbn; intros N I; [constructor; [intros []|constructor]|]. inversion N; subst. constructor; [|apply IH; tauto].
  intros J. apply in_app_iff in J as [J|[J|[]]]; [contradiction|]. subst. tauto.
Qed.

(** ** traces *)
Lemma sends_app a b : sends (a ++ b) = sends a + sends b.
Proof. unfold sends. rewrite filter_app. unfold zlen. rewrite app_length. lia. Qed.
Lemma born_app tr x t c n k : born tr t c n k -> born (tr ++ x) t c n k.
Proof. intros (a & b & -> & E). exists a, (b ++ x). rewrite <- app_assoc. auto. Qed.
Lemma since_app tr x t o : since tr t o -> since (tr ++ x) t o.
Proof. intros (a & n & c & b & -> & I). exists a, n, c, (b ++ x). rewrite <- app_assoc. split; [reflexivity|]. apply in_or_app. auto. Qed.
Lemma since_new tr x t c n k o : born tr t c n k -> In o x -> since (tr ++ x) t o.
Proof. intros (a & b & -> & E) I. exists a, n, c, (b ++ x). rewrite <- app_assoc. split; [reflexivity|]. apply in_or_app. auto. Qed.
Lemma exec_app s0 es1 s1 tr1 es2 s2 tr2 : exec s0 es1 s1 tr1 -> exec s1 es2 s2 tr2 -> exec s0 (es1 ++ es2) s2 (tr1 ++ tr2).
Proof.
  intros A B. induction B as [|es s tr e s' os B IH E]; [rewrite !app_nil_r; exact A|].
  rewrite !app_assoc. eapply X_snoc; eassumption.
Qed.
Lemma run_exec es : forall s s' tr, run s es = Some (s', tr) -> exec s es s' tr.
Proof.
  induction es as [|e es IH]; intros s s' tr E; cbn [run] in E; [injection E as <- <-; constructor|].
  destruct (step s e) as [[s1 os]|] eqn:S; [|discriminate]. destruct (run s1 es) as [[s2 tr2]|] eqn:R; [|discriminate]. injection E as <- <-.
  change (e :: es) with ([e] ++ es). eapply exec_app; [|exact (IH _ _ _ R)].
  change [e] with ([] ++ [e]). change (stamp (c_now s) os) with ([] ++ stamp (c_now s) os). eapply X_snoc; [constructor|exact S].
Qed.
