(** Proofs about the interviews of associations and sensors: what an interview asks and how it ends. *)
From Coq Require Import String ZArith List Bool Lia ZifyBool.
From Verif Require Import Py Schema Registry Codec Waiter Conn ConnLemmas NodeReq SpecNodeReq NodeReqProofs NodeFresh NodeM CmdClass AssocM SpecAssoc AssocProofs AssocData AssocFresh.
From Verif Require InterviewProofs InterviewVisit GrpInfoProofs ClassProofs.
Import ListNotations.
Open Scope list_scope.
Open Scope string_scope.
Open Scope list_scope.
Open Scope Z_scope.

(** ** the keys of the groups *)
Lemma nodup_num n gs : NoDup (map fst gs) -> NoDup (map fst (set_num_groups n gs)).
Proof.
  unfold set_num_groups. generalize (seq 1 (Z.to_nat n)). intros l. revert gs. induction l as [|x l IH]; intros gs H; [exact H|]. cbn [fold_left]. apply IH. destruct (dmem _ _ _); [exact H|]. apply GrpInfoProofs.dset_keys, H.
Qed.
Lemma set_length {V} k (v : V) d : dget Z.eqb k d <> None -> List.length (dset Z.eqb k v d) = List.length d.
Proof. induction d as [|[k' x] d IH]; intros H; [destruct (H eq_refl)|]. cbn in *. destruct (k =? k'); [reflexivity|]. cbn. f_equal. exact (IH H). Qed.
Lemma record_keys i m gs : NoDup (map fst gs) -> NoDup (map fst (fst (record_group i m gs))).
Proof.
  intros H. unfold record_group. destruct (dget Z.eqb i gs) as [g|]; [|exact H]. destruct (to_int _) as [j|]; [|exact H]. destruct (j =? i); [|exact H]. destruct (to_int _) as [mx|]; [|exact H].
  destruct (setattr_coerce _ _) as [[]|]; apply GrpInfoProofs.dset_keys, H.
Qed.
Lemma record_length i m gs : List.length (fst (record_group i m gs)) = List.length gs.
Proof.
  unfold record_group. destruct (dget Z.eqb i gs) as [g|] eqn:E; [|reflexivity]. destruct (to_int _) as [j|]; [|reflexivity]. destruct (j =? i); [|reflexivity]. destruct (to_int _) as [mx|]; [|reflexivity].
  destruct (setattr_coerce _ _) as [[]|]; apply set_length; congruence.
Qed.
Lemma got_keys c w r gs ts gs' ts' a : got c w r gs ts = (gs', ts', a) -> (NoDup (map fst gs) -> NoDup (map fst gs')) /\ (w = PGet \/ List.length gs' = List.length gs).
Proof.
  intros G. destruct r as [m|e].
  - destruct w as [|i size rest| |od2|k rest]; cbn [got] in G.
    + destruct (to_int _); injection G as <- <- <-; (split; [|left; reflexivity]); intros H; [apply nodup_num, H|exact H].
    + pose proof (record_keys i m gs) as RK. pose proof (record_length i m gs) as RL. destruct (record_group i m gs) as [g x]. cbn [fst] in *. destruct x as [[]|[]]; injection G as <- <- <-; split; auto.
    + pose proof (record_keys 1 m gs) as RK. pose proof (record_length 1 m gs) as RL. destruct (record_group 1 m gs) as [g x]. cbn [fst] in *. injection G as <- <- <-; split; auto.
    + destruct (getattr m "bitMask"); injection G as <- <- <-; split; auto.
    + destruct (to_int _); injection G as <- <- <-; split; auto.
  - destruct (got_err c w e gs ts) as [a' E]. rewrite E in G. injection G as <- <- <-. split; auto.
Qed.
Lemma nodup_exec c gs ts es s tr : pexec (pstate0 c gs ts) es s tr -> NoDup (map fst gs) -> NoDup (map fst (p_groups s)).
Proof.
  intros X N. induction X as [|es s tr e s' os X IH ST]; [exact N|].
  destruct (step_cases s e s' os ST) as [(e' & n & osn & -> & SN & -> & -> & NW)|(n & osn & t & hd & gs0 & ts0 & a & n' & TN & NA & -> & ->)]; [exact IH|].
  cbn [p_groups]. destruct TN as [e0 n0 osn0 u r t0 w gs1 ts1 a0 _ _ _ G|x|t0 r Q]; [|exact IH|exact IH]. apply (got_keys _ _ _ _ _ _ _ _ G). exact IH.
Qed.
Lemma has_in gs k : has gs k <-> In k (map fst gs).
Proof.
  split; [|intros J; pose proof (has_keys gs) as H; rewrite Forall_forall in H; exact (H _ J)]. unfold has. induction gs as [|[k' g] gs IH]; cbn; [intros H; destruct (H eq_refl)|]. destruct (Z.eqb_spec k k') as [->|N]; [auto|]. intros H. right. exact (IH H).
Qed.
Lemma counted_more k a T os : counted k a = true -> counted k (a ++ pstamp T os) = true.
Proof. unfold counted, answers. rewrite answers_app, flat_map_app, existsb_app. intros ->. reflexivity. Qed.
Lemma origin_exec c gs ts es s tr k : pexec (pstate0 c gs ts) es s tr -> from_wire tr -> has (p_groups s) k -> In k (map fst gs) \/ counted k tr = true.
Proof.
  intros X. induction X as [|es s tr e s' os X IH ST]; intros W H; [left; apply has_in; exact H|]. specialize (IH (wire_app _ _ W)).
  assert (OLD : has (p_groups s) k -> In k (map fst gs) \/ counted k (tr ++ pstamp (n_now (p_net s)) os) = true) by (intros K; destruct (IH K); [auto|right; apply counted_more; assumption]).
  destruct (linked_exec _ _ _ _ _ _ X) as [L C]. destruct (ready_exec _ _ _ _ _ _ X) as [AR _].
  destruct (step_effect s tr e s' os L AR W ST) as [EG ET NA|t u w m bs Q B D HH IR EG ET NA]; [rewrite EG in H; exact (OLD H)|].
  rewrite EG in H. unfold new_groups in H. destruct (of_group w) as [i|] eqn:O.
  - apply OLD. unfold has, put_group in *. destruct (dget Z.eqb i (p_groups s)) eqn:E; [|exact H]. destruct (about i m) as [|g2 [|? ?]]; try exact H. rewrite NodeProofs.dget_dset in H. destruct (Z.eqb_spec k i) as [->|]; [congruence|exact H].
  - destruct w; try exact (OLD H). destruct (number_one "supportedGroupings" m) as [E|[z E]]; rewrite E in H; [exact (OLD H)|]. unfold has in H. rewrite num_groups_get in H. destruct (dget Z.eqb k (p_groups s)) eqn:E2; [apply OLD; unfold has; congruence|].
    destruct ((1 <=? k) && (k <=? z)) eqn:Z; [|destruct (H eq_refl)]. right. unfold counted, answers. rewrite answers_app, flat_map_app, existsb_app. fold (new count_question s tr os). rewrite NA. assert (SC : says (wq (p_cls s) PGet) count_question = true) by exact count_wire. rewrite SC. cbn [flat_map]. rewrite E. cbn [app existsb]. rewrite Z. cbn. apply orb_true_r.
Qed.

(** ** the course of an interview *)
Definition other (t : nat) (tr : ptrace) : Prop := exists n t', t' <> t /\ In (n, POCall t' PAssoc) tr.
Definition keys_ok (gs0 : groupings) (t : nat) (tr : ptrace) (ks : list Z) : Prop :=
  (NoDup (map fst gs0) -> NoDup ks) /\ incl (map fst gs0) ks /\ (forall k, In k ks -> In k (map fst gs0) \/ counted k tr = true) /\
  exists m n, got_back t count_question (RMsg m) tr /\ SpecAssoc.number "supportedGroupings" m = [n] /\ forall i, 1 <= i <= n -> In i ks.
Definition q0 : val := VObj (CMsg m_Association_GroupingsGet) [].
Definition sq : val := VObj (CMsg m_SensorMultilevel_SupportedGetSensor) [].
Definition assoc_course (c : classes) (gs0 : groupings) (len : nat) (tr : ptrace) (t : nat) (p : ppc) : Prop :=
  (exists n, In (n, POCall t PAssoc) tr) /\
  match p with
  | PSusp _ PGet => questions t tr = [q0] /\ sends t tr = []
  | PSusp _ (PGroup i size rest) => exists pre, keys_ok gs0 t tr (pre ++ i :: rest) /\ questions t tr = q0 :: map (group_q c) (pre ++ [i]) /\ sends t tr = [] /\
      size = List.length (pre ++ i :: rest) /\ (len <> size -> other t tr)
  | PSending => exists ks, keys_ok gs0 t tr ks /\ questions t tr = q0 :: map (group_q c) ks /\ sends t tr = [life_q c]
  | PSusp _ PLast => exists ks, keys_ok gs0 t tr ks /\ questions t tr = q0 :: map (group_q c) (ks ++ [1]) /\ sends t tr = [life_q c]
  | PEnd (Ok _) => exists ks, keys_ok gs0 t tr ks /\ ((questions t tr = q0 :: map (group_q c) ks /\ sends t tr = []) \/
      (questions t tr = q0 :: map (group_q c) (ks ++ [1]) /\ sends t tr = [life_q c] /\ exists m, got_back t (group_question c 1) (RMsg m) tr))
  | PEnd (Err e) => assoc_cause c t e tr
  | PSusp _ (PSensors _) | PSusp _ (PScale _ _) => False
  end.
Definition scaled (t : nat) (tr : ptrace) (k : Z) : Prop := byte k -> exists m z, got_back t (scale_question k) (RMsg m) tr /\ SpecAssoc.number "scaleBitMask" m = [z].
Definition listed (od : list Z -> list Z) (t : nat) (tr : ptrace) (l : list Z) : Prop := exists m l0, got_back t sensor_question (RMsg m) tr /\ getattr m "bitMask" = VSensors l0 /\ l = od l0.
Definition sensor_course (v : Z) (od : list Z -> list Z) (tr : ptrace) (t : nat) (p : ppc) : Prop :=
  (exists n, In (n, POCall t (PSensor v od)) tr) /\ sends t tr = [] /\
  match p with
  | PSusp _ (PSensors od') => od' = od /\ 5 <= v /\ questions t tr = [sq]
  | PSusp _ (PScale k rest) => 5 <= v /\ exists pre, listed od t tr (pre ++ k :: rest) /\ questions t tr = sq :: map scale_q (pre ++ [k]) /\ Forall (scaled t tr) pre
  | PEnd (Ok _) => (v < 5 /\ questions t tr = []) \/ (5 <= v /\ exists l, listed od t tr l /\ questions t tr = sq :: map scale_q l /\ Forall (scaled t tr) l)
  | PEnd (Err e) => 5 <= v /\ sensor_cause t e tr
  | _ => False
  end.
(** nothing is lost when the trace grows *)
Lemma got_more t w r a b : got_back t w r a -> got_back t w r (a ++ b).
Proof. intros (n & n' & u & q & A & B & C). exists n, n', u, q. split; [apply in_or_app; auto|]. split; [exact B|apply in_or_app; auto]. Qed.
Lemma other_more t a b : other t a -> other t (a ++ b).
Proof. intros (n & t' & N & J). exists n, t'. split; [exact N|apply in_or_app; auto]. Qed.
Lemma keys_more gs0 t a T os ks : keys_ok gs0 t a ks -> keys_ok gs0 t (a ++ pstamp T os) ks.
Proof.
  intros (A & B & C & m & n & D & E & F). split; [exact A|]. split; [exact B|]. split; [intros k J; destruct (C k J); [auto|right; apply counted_more; assumption]|]. exists m, n. split; [apply got_more, D|auto].
Qed.
Lemma scaled_more t a b k : scaled t a k -> scaled t (a ++ b) k.
Proof. intros S B. destruct (S B) as (m & z & G & N). exists m, z. split; [apply got_more, G|exact N]. Qed.
Lemma listed_more od t a b l : listed od t a l -> listed od t (a ++ b) l.
Proof. intros (m & l0 & G & N). exists m, l0. split; [apply got_more, G|exact N]. Qed.
Lemma sends_app t a b : sends t (a ++ b) = sends t a ++ sends t b. Proof. apply flat_map_app. Qed.
Lemma questions_app t a b : questions t (a ++ b) = questions t a ++ questions t b. Proof. apply flat_map_app. Qed.
Lemma cause_more c t e a b : sends t b = [] -> assoc_cause c t e a -> assoc_cause c t e (a ++ b).
Proof.
  intros S [A|[(n & n' & u & q & A & B & C)|[(n & A)|[(-> & n & n' & u & q & m & A & B & C)|(-> & n & t' & N & A)]]]].
  - left. apply got_more, A.
  - right; left. exists n, n', u, q. rewrite sends_app, S, app_nil_r. repeat (split; [apply in_or_app; auto|]). exact C.
  - right; right; left. exists n. apply in_or_app; auto.
  - do 3 right; left. split; [reflexivity|]. exists n, n', u, q, m. repeat (split; [apply in_or_app; auto|]). exact C.
  - do 4 right. split; [reflexivity|]. exists n, t'. split; [exact N|apply in_or_app; auto].
Qed.
Lemma sensor_more t e a b : sensor_cause t e a -> sensor_cause t e (a ++ b).
Proof.
  intros [(n & n' & u & q & A & B)|(-> & n & n' & u & q & m & A & B & C)].
  - left. exists n, n', u, q. split; apply in_or_app; auto.
  - right. split; [reflexivity|]. exists n, n', u, q, m. repeat (split; [apply in_or_app; auto|]). exact C.
Qed.
Lemma course_keep c gs0 len len' tr T os t p : assoc_course c gs0 len tr t p -> questions t (pstamp T os) = [] -> sends t (pstamp T os) = [] -> (len' = len \/ other t tr) -> assoc_course c gs0 len' (tr ++ pstamp T os) t p.
Proof.
  intros [[n A] B] Q S O. split; [exists n; apply in_or_app; auto|]. rewrite questions_app, sends_app, Q, S, !app_nil_r.
  destruct p as [u [|i size rest| |od2|k rest]| |[r|e]]; try exact B.
  - destruct B as (pre & B1 & B2 & B3 & B4 & B5). exists pre. split; [apply keys_more, B1|]. do 3 (split; [assumption|]). intros N. apply other_more. destruct O as [->|O]; [exact (B5 N)|exact O].
  - destruct B as (ks & B1 & B2). exists ks. split; [apply keys_more, B1|exact B2].
  - destruct B as (ks & B1 & B2). exists ks. split; [apply keys_more, B1|exact B2].
  - destruct B as (ks & B1 & B2). exists ks. split; [apply keys_more, B1|]. destruct B2 as [B2|(B2 & B3 & m & B4)]; [left; exact B2|right]. do 2 (split; [assumption|]). exists m. apply got_more, B4.
  - apply cause_more; assumption.
Qed.
Lemma sensor_keep v od tr T os t p : sensor_course v od tr t p -> questions t (pstamp T os) = [] -> sends t (pstamp T os) = [] -> sensor_course v od (tr ++ pstamp T os) t p.
Proof.
  intros ([n A] & S0 & B) Q S. split; [exists n; apply in_or_app; auto|]. split; [rewrite sends_app, S0, S; reflexivity|]. rewrite questions_app, Q, app_nil_r.
  assert (FM : forall l, Forall (scaled t tr) l -> Forall (scaled t (tr ++ pstamp T os)) l) by (intros l F; eapply Forall_impl; [|exact F]; intros k; apply scaled_more).
  destruct p as [u [|i size rest| |od2|k rest]| |[r|e]]; try exact B.
  - destruct B as (V & pre & B1 & B2 & B3). split; [exact V|]. exists pre. split; [apply listed_more, B1|]. auto.
  - destruct B as [B|(V & l & B1 & B2 & B3)]; [left; exact B|right]. split; [exact V|]. exists l. split; [apply listed_more, B1|]. auto.
  - destruct B as [V B]. split; [exact V|apply sensor_more, B].
Qed.

(** ** one step *)
Definition q_of (a : pact) : list val := match a with QAsk q _ _ => [q] | _ => [] end.
Definition s_of (a : pact) : list val := match a with QSend q => [q] | _ => [] end.
Lemma nets_quiet T t os : questions t (pstamp T (map PONet os)) = [] /\ sends t (pstamp T (map PONet os)) = [].
Proof. induction os as [|o os IH]; [split; reflexivity|exact IH]. Qed.
Lemma turn_seen s e n osn t hd gs ts a T t' : turn s e n osn t hd gs ts a ->
  questions t' (pstamp T (map PONet osn ++ hd ++ tail_of n t a)) = (if Nat.eqb t t' then q_of a else []) /\ sends t' (pstamp T (map PONet osn ++ hd ++ tail_of n t a)) = (if Nat.eqb t t' then s_of a else []).
Proof.
  intros TN. rewrite !stamp_app, !questions_app, !sends_app. destruct (nets_quiet T t' osn) as [-> ->].
  assert (H : questions t' (pstamp T hd) = [] /\ sends t' (pstamp T hd) = []) by (destruct TN; split; reflexivity). destruct H as [-> ->]. cbn [app].
  destruct a as [q h w|q|r]; cbn; destruct (Nat.eqb t t'); split; reflexivity.
Qed.
(** the list of groups goes on *)
Lemma settle c gs0 gs tr t pre rest n : (exists n, In (n, POCall t PAssoc) tr) -> keys_ok gs0 t tr (pre ++ rest) ->
  let a := next_group c gs (List.length (pre ++ rest)) rest in
  questions t tr = q0 :: map (group_q c) pre ++ q_of a -> sends t tr = s_of a -> (List.length gs <> List.length (pre ++ rest) -> other t tr) -> assoc_course c gs0 (List.length gs) tr t (pc_of n a).
Proof.
  intros CL K a. unfold next_group in a. subst a. destruct (Nat.eqb_spec (List.length gs) (List.length (pre ++ rest))) as [E|N]; intros Q S O.
  - destruct rest as [|i rest].
    + rewrite app_nil_r in K. rewrite lifeline_is in *. destruct (supports c 94); [destruct (dget Z.eqb 1 gs) as [g|]; [destruct (contains _ _ _)|]|]; cbn [q_of s_of pc_of] in *; rewrite ?app_nil_r in Q; (split; [exact CL|]); exists pre; auto.
    + rewrite ask_group_is in *. cbn [q_of s_of pc_of] in *. split; [exact CL|]. exists pre. split; [exact K|]. rewrite map_app. auto.
  - split; [exact CL|]. cbn [pc_of]. do 4 right. split; [reflexivity|]. exact (O N).
Qed.
Lemma settle_scale v od tr t pre rest n : (exists n, In (n, POCall t (PSensor v od)) tr) -> 5 <= v -> listed od t tr (pre ++ rest) -> let a := next_scale rest in
  questions t tr = sq :: map scale_q pre ++ q_of a -> sends t tr = s_of a -> Forall (scaled t tr) pre -> sensor_course v od tr t (pc_of n a).
Proof.
  intros CL V LS a. unfold a. rewrite next_scale_is. intros Q S F. destruct rest as [|k rest]; cbn [q_of s_of pc_of] in *.
  - rewrite app_nil_r in LS, Q. split; [exact CL|]. split; [exact S|]. right. split; [exact V|]. exists pre. auto.
  - split; [exact CL|]. split; [exact S|]. split; [exact V|]. exists pre. rewrite map_app. auto.
Qed.
Record course (c : classes) (gs0 : groupings) (s : pstate) (tr : ptrace) : Prop := mkCourse {
  i_task : forall t p, nth_error (p_tasks s) t = Some p -> assoc_course c gs0 (List.length (p_groups s)) tr t p \/ exists v od, sensor_course v od tr t p;
  i_new : forall t, (List.length (p_tasks s) <= t)%nat -> questions t tr = [] /\ sends t tr = [] /\ forall n x, ~ In (n, POCall t x) tr;
  i_done : forall n t r, In (n, PODone t r) tr -> nth_error (p_tasks s) t = Some (PEnd r);
  i_call : forall n n' t x x', In (n, POCall t x) tr -> In (n', POCall t x') tr -> x = x' }.
Lemma got_assoc c gs0 s tr e n osn u r t w gs ts a : linked s tr -> p_cls s = c -> all_ready s ->
  let tr' := tr ++ pstamp (n_now (p_net s)) (map PONet osn ++ tail_of n t a) in
  from_wire tr' -> (NoDup (map fst gs0) -> NoDup (map fst gs)) -> (forall k, has gs0 k -> has gs k) -> (forall k, has gs k -> In k (map fst gs0) \/ counted k tr' = true) ->
  nstep (p_net s) e = Some (n, osn) -> returned osn = Some (u, r) -> nth_error (p_tasks s) t = Some (PSusp u w) -> got c w (value_of r) (p_groups s) (p_types s) = (gs, ts, a) ->
  assoc_course c gs0 (List.length (p_groups s)) tr t (PSusp u w) -> assoc_course c gs0 (List.length gs) tr' t (pc_of n a).
Proof.
  intros L C AR tr' W ND GR OR ST R Q G [[n1 CL] K].
  assert (TN : turn s (PNet e) n osn t [] gs ts a) by (rewrite <- C in G; eapply T_ans; eassumption). destruct (turn_seen _ _ _ _ _ _ _ _ _ (n_now (p_net s)) t TN) as [TQ TS]. rewrite Nat.eqb_refl in TQ, TS. cbn [app] in TQ, TS.
  assert (QS : questions t tr' = questions t tr ++ q_of a) by (unfold tr'; rewrite questions_app, TQ; reflexivity). assert (SS : sends t tr' = sends t tr ++ s_of a) by (unfold tr'; rewrite sends_app, TS; reflexivity).
  assert (CL' : exists n, In (n, POCall t PAssoc) tr') by (exists n1; apply in_or_app; auto). assert (RI : In (NRet u r) osn) by exact (InterviewProofs.returned_in _ _ _ R).
  destruct (l_susp _ _ L _ _ _ Q) as (p & n2 & _ & _ & A). rewrite C in A.
  assert (IA : In (n2, POAsk t u (wq c w)) tr') by (apply in_or_app; auto).
  assert (IR : In (n_now (p_net s), PONet (NRet u r)) tr') by (apply in_or_app; right; apply in_stamp; split; [reflexivity|]; apply in_or_app; left; apply in_map, RI).
  assert (GB : forall x, says (wq c w) x = true -> got_back t x r tr') by (intros x SX; exists n2, (n_now (p_net s)), u, (wq c w); auto).
  assert (KM : forall ks, keys_ok gs0 t tr ks -> keys_ok gs0 t tr' ks) by (intros ks; apply keys_more).
  assert (OM : other t tr -> other t tr') by (apply other_more).
  destruct r as [b|m|x]; [destruct (InterviewVisit.no_bool _ _ _ _ _ _ ST RI)| |].
  - destruct (reply_wire _ _ _ _ _ _ _ _ _ _ L ST RI Q W) as (HH & bs & B & D). rewrite C in HH. cbn [value_of] in G. pose proof (AR _ _ Q) as RD.
    destruct w as [|i size rest| |od2|k rest]; cbn [got] in G; try contradiction.
    + destruct K as [K1 K2]. destruct (count_fields bs m D HH) as [E|[z E]]; rewrite E in G; cbn [to_int] in G; injection G as <- <- <-.
      * split; [exact CL'|]. cbn [pc_of]. do 3 right; left. split; [reflexivity|]. exists n2, (n_now (p_net s)), u, (wq c PGet), m. split; [exact IA|]. split; [exact IR|]. left. exact E.
      * assert (KO : keys_ok gs0 t tr' ([] ++ map fst (set_num_groups z (p_groups s)))).
        { split; [exact ND|]. split; [intros k J; apply has_in, GR, has_in, J|]. split; [intros k J; apply OR, has_in, J|]. exists m, z. split; [apply GB, count_is; reflexivity|]. unfold SpecAssoc.number. rewrite E. split; [reflexivity|].
          intros i H. apply has_in. unfold has. rewrite num_groups_get. destruct (dget _ _ _); [discriminate|]. replace ((1 <=? i) && (i <=? z)) with true by lia. discriminate. }
        replace (List.length (set_num_groups z (p_groups s))) with (List.length ([] ++ map fst (set_num_groups z (p_groups s)))) in QS, SS |- * by (cbn; apply map_length).
        rewrite K1 in QS. rewrite K2 in SS.
        replace (List.length ([] ++ map fst (set_num_groups z (p_groups s)))) with (List.length (set_num_groups z (p_groups s))) at 1 by (cbn; symmetry; apply map_length).
        apply settle; [exact CL'|exact KO|exact QS|exact SS|]. intros N. destruct N. cbn. symmetry. apply map_length.
    + destruct K as (pre & K1 & K2 & K3 & K4 & K5). subst size. rewrite (record_is c bs i m (p_groups s) D HH (proj1 RD)) in G.
      assert (PE : pre ++ i :: rest = (pre ++ [i]) ++ rest) by (rewrite <- app_assoc; reflexivity).
      assert (LG : List.length (put_group i (p_groups s) (about i m)) = List.length (p_groups s)) by (pose proof (record_length i m (p_groups s)) as RL; rewrite (record_is c bs i m (p_groups s) D HH (proj1 RD)) in RL; exact RL).
      destruct (record_result i m) as [[]|x] eqn:RR.
      * injection G as <- <- <-. rewrite PE in *. apply settle; [exact CL'|apply KM, K1|rewrite QS, K2; reflexivity|rewrite SS, K3; reflexivity|]. rewrite LG. auto.
      * unfold record_result in RR. destruct (group_fields c bs m D HH) as (_ & GM & _). assert (x = EType /\ cut "maxNodesSupported" m) as [-> CT].
        { destruct (SpecAssoc.number "groupingIdentifier" m) as [|j [|? ?]]; try discriminate. unfold SpecAssoc.number in RR. destruct GM as [E|[y E]]; rewrite E in RR; [|discriminate]. destruct (j =? i); [|discriminate]. injection RR as <-. split; [reflexivity|exact E]. }
        injection G as <- <- <-. split; [exact CL'|]. cbn [pc_of]. do 3 right; left. split; [reflexivity|]. exists n2, (n_now (p_net s)), u, (wq c (PGroup i (List.length (pre ++ i :: rest)) rest)), m. auto.
    + destruct K as (ks & K1 & K2 & K3). rewrite (record_is c bs 1 m (p_groups s) D HH RD) in G. injection G as <- <- <-. split; [exact CL'|]. cbn [pc_of q_of s_of] in *. rewrite app_nil_r in QS, SS. destruct (record_result 1 m) as [[]|x] eqn:RR.
      * exists ks. split; [apply KM, K1|]. right. rewrite QS, SS. split; [exact K2|]. split; [exact K3|]. exists m. apply GB. apply group_is; [unfold byte; lia|reflexivity].
      * unfold record_result in RR. destruct (group_fields c bs m D HH) as (_ & GM & _). assert (x = EType /\ cut "maxNodesSupported" m) as [-> CT].
        { destruct (SpecAssoc.number "groupingIdentifier" m) as [|j [|? ?]]; try discriminate. unfold SpecAssoc.number in RR. destruct GM as [E|[y E]]; rewrite E in RR; [|discriminate]. destruct (j =? 1); [|discriminate]. injection RR as <-. split; [reflexivity|exact E]. }
        do 3 right; left. split; [reflexivity|]. exists n2, (n_now (p_net s)), u, (wq c PLast), m. auto.
  - cbn [value_of] in G.
    destruct w as [|i size rest| |od2|k rest]; cbn [got] in G; try contradiction.
    + injection G as <- <- <-. split; [exact CL'|]. left. apply GB, count_is. reflexivity.
    + destruct K as (pre & K1 & K2 & K3 & K4 & K5). subst size. assert (PE : pre ++ i :: rest = (pre ++ [i]) ++ rest) by (rewrite <- app_assoc; reflexivity).
      assert (EN : x <> ETimeout -> assoc_course c gs0 (List.length (p_groups s)) tr' t (PEnd (Err x))).
      { intros N. split; [exact CL'|]. right; left. exists n2, (n_now (p_net s)), u, (wq c (PGroup i (List.length (pre ++ i :: rest)) rest)). auto. }
      destruct x; injection G as <- <- <-; try (apply EN; discriminate).
      rewrite PE in *. apply settle; [exact CL'|apply KM, K1|rewrite QS, K2; reflexivity|rewrite SS, K3; reflexivity|]. auto.
    + destruct K as (ks & K1 & K2 & K3). injection G as <- <- <-. split; [exact CL'|]. right; left. exists n2, (n_now (p_net s)), u, (wq c PLast). split; [exact IA|]. split; [exact IR|]. right. rewrite SS, K3. discriminate.
Qed.
Lemma got_sensor c s tr e n osn u r t w gs ts a v od : linked s tr -> p_cls s = c ->
  let tr' := tr ++ pstamp (n_now (p_net s)) (map PONet osn ++ tail_of n t a) in
  from_wire tr' -> nstep (p_net s) e = Some (n, osn) -> returned osn = Some (u, r) -> nth_error (p_tasks s) t = Some (PSusp u w) -> got c w (value_of r) (p_groups s) (p_types s) = (gs, ts, a) ->
  sensor_course v od tr t (PSusp u w) -> sensor_course v od tr' t (pc_of n a).
Proof.
  intros L C tr' W ST R Q G ([n1 CL] & S0 & K).
  assert (TN : turn s (PNet e) n osn t [] gs ts a) by (rewrite <- C in G; eapply T_ans; eassumption). destruct (turn_seen _ _ _ _ _ _ _ _ _ (n_now (p_net s)) t TN) as [TQ TS]. rewrite Nat.eqb_refl in TQ, TS. cbn [app] in TQ, TS.
  assert (QS : questions t tr' = questions t tr ++ q_of a) by (unfold tr'; rewrite questions_app, TQ; reflexivity). assert (SS : sends t tr' = s_of a) by (unfold tr'; rewrite sends_app, S0, TS; reflexivity).
  assert (CL' : exists n, In (n, POCall t (PSensor v od)) tr') by (exists n1; apply in_or_app; auto). assert (RI : In (NRet u r) osn) by exact (InterviewProofs.returned_in _ _ _ R).
  destruct (l_susp _ _ L _ _ _ Q) as (p & n2 & _ & _ & A). rewrite C in A.
  assert (IA : In (n2, POAsk t u (wq c w)) tr') by (apply in_or_app; auto).
  assert (IR : In (n_now (p_net s), PONet (NRet u r)) tr') by (apply in_or_app; right; apply in_stamp; split; [reflexivity|]; apply in_or_app; left; apply in_map, RI).
  assert (GB : forall x, says (wq c w) x = true -> got_back t x r tr') by (intros x SX; exists n2, (n_now (p_net s)), u, (wq c w); auto).
  assert (FM : forall l, Forall (scaled t tr) l -> Forall (scaled t tr') l) by (intros l F; eapply Forall_impl; [|exact F]; intros k; apply scaled_more).
  assert (V : 5 <= v) by (destruct w; try contradiction; apply K).
  destruct r as [b|m|x]; [destruct (InterviewVisit.no_bool _ _ _ _ _ _ ST RI)| |].
  - destruct (reply_wire _ _ _ _ _ _ _ _ _ _ L ST RI Q W) as (HH & bs & B & D). rewrite C in HH. cbn [value_of] in G.
    destruct w as [|i size rest| |od2|k rest]; cbn [got] in G; try contradiction.
    + destruct K as (-> & _ & K). destruct (sensor_fields bs m D HH) as [E|[l E]]; rewrite E in G; injection G as <- <- <-.
      * split; [exact CL'|]. split; [exact SS|]. split; [exact V|]. right. split; [reflexivity|]. exists n2, (n_now (p_net s)), u, (wq c (PSensors od)), m. split; [exact IA|]. split; [exact IR|]. left. exact E.
      * apply (settle_scale v od tr' t [] (od l)); [exact CL'|exact V|exists m, l; split; [apply GB, sensor_is; eexists; reflexivity|split; [exact E|reflexivity]]|rewrite QS, K; reflexivity|exact SS|constructor].
    + destruct K as (_ & pre & K1 & K2 & K3). destruct (scale_fields bs m D HH) as [_ [E|[z E]]]; rewrite E in G; cbn [to_int] in G; injection G as <- <- <-.
      * split; [exact CL'|]. split; [exact SS|]. split; [exact V|]. right. split; [reflexivity|]. exists n2, (n_now (p_net s)), u, (wq c (PScale k rest)), m. split; [exact IA|]. split; [exact IR|]. right. exact E.
      * apply (settle_scale v od tr' t (pre ++ [k]) rest); [exact CL'|exact V|rewrite <- app_assoc; apply listed_more, K1|rewrite QS, K2; reflexivity|exact SS|]. apply Forall_app. split; [apply FM, K3|]. constructor; [|constructor].
        intros BK. exists m, z. split; [apply GB, scale_is; [exact BK|reflexivity]|]. unfold SpecAssoc.number. rewrite E. reflexivity.
  - cbn [value_of] in G. assert (EN : sensor_cause t x tr') by (left; exists n2, (n_now (p_net s)), u, (wq c w); auto).
    destruct w as [|i size rest| |od2|k rest]; cbn [got] in G; try contradiction; injection G as <- <- <-; (split; [exact CL'|]); split; [exact SS| |exact SS|]; split; assumption.
Qed.
Lemma course_step c gs0 ts0 es s tr e s' os : pexec (pstate0 c gs0 ts0) es s tr -> course c gs0 s tr -> pstep s e = Some (s', os) -> from_wire (tr ++ pstamp (n_now (p_net s)) os) -> course c gs0 s' (tr ++ pstamp (n_now (p_net s)) os).
Proof.
  intros X I ST W. destruct (linked_exec _ _ _ _ _ _ X) as [L C]. destruct (ready_exec _ _ _ _ _ _ X) as [AR _]. pose proof (PX_snoc _ _ _ _ _ _ _ X ST) as X'.
  destruct (step_cases s e s' os ST) as [(e' & n & osn & -> & SN & -> & -> & NW)|(n & osn & t & hd & gs & ts & a & n' & TN & NA & -> & ->)].
  - assert (NI : forall o n0, In (n0, o) (pstamp (n_now (p_net s)) (map PONet osn)) -> exists o', o = PONet o') by (intros o n0 J; apply in_stamp in J as [_ J]; apply in_map_iff in J as (o' & <- & _); eauto).
    constructor; cbn [p_tasks p_groups].
    + intros t p Q. destruct (nets_quiet (n_now (p_net s)) t osn) as [A B]. destruct (i_task _ _ _ _ I t p Q) as [K|(v & od & K)]; [left; eapply course_keep; eauto|right; exists v, od; apply sensor_keep; assumption].
    + intros t Q. destruct (i_new _ _ _ _ I t Q) as (A & B & D). destruct (nets_quiet (n_now (p_net s)) t osn) as [A' B']. rewrite questions_app, sends_app, A, B, A', B'. split; [reflexivity|]. split; [reflexivity|].
      intros n0 x J. apply in_app_or in J as [J|J]; [exact (D _ _ J)|]. destruct (NI _ _ J). discriminate.
    + intros n0 t r J. apply in_app_or in J as [J|J]; [exact (i_done _ _ _ _ I _ _ _ J)|]. destruct (NI _ _ J). discriminate.
    + intros n0 n1 t x x' J J'. apply in_app_or in J as [J|J]; [|destruct (NI _ _ J); discriminate]. apply in_app_or in J' as [J'|J']; [|destruct (NI _ _ J'); discriminate]. exact (i_call _ _ _ _ I _ _ _ _ _ J J').
  - pose proof (turn_len _ _ _ _ _ _ _ _ _ TN) as TL. pose proof (fun t' => turn_seen _ _ _ _ _ _ _ _ _ (n_now (p_net s)) t' TN) as SEEN.
    assert (NP : forall r, nth_error (p_tasks s) t <> Some (PEnd r)).
    { intros r. destruct TN as [e0 n0 osn0 u r0 t0 w gs1 ts1 a0 _ _ Q G|x|t0 r0 Q]; [congruence| |congruence]. intros Q. apply nth_lt in Q. lia. }
    assert (CALLS : forall n0 t' x, In (n0, POCall t' x) (pstamp (n_now (p_net s)) (map PONet osn ++ hd ++ tail_of n t a)) -> t' = t /\ t = List.length (p_tasks s) /\ e = PCall x).
    { intros n0 t' x J. apply in_stamp in J as [_ J]. apply in_app_or in J as [J|J]; [apply in_map_iff in J as (? & J & _); discriminate|]. apply in_app_or in J as [J|J].
      - destruct TN as [e0 n1 osn0 u r0 t0 w gs1 ts1 a0 _ _ Q G|x0|t0 r0 Q]; [destruct J| |destruct J as [J|[]]; discriminate]. destruct J as [J|[]]. injection J as <- <-. auto.
      - destruct a; cbn in J; intuition discriminate. }
    assert (DONES : forall n0 t' r, In (n0, PODone t' r) (pstamp (n_now (p_net s)) (map PONet osn ++ hd ++ tail_of n t a)) -> t' = t /\ a = QRes r).
    { intros n0 t' r J. apply in_stamp in J as [_ J]. apply in_app_or in J as [J|J]; [apply in_map_iff in J as (? & J & _); discriminate|]. apply in_app_or in J as [J|J].
      - destruct TN as [e0 n1 osn0 u r0 t0 w gs1 ts1 a0 _ _ Q G|x0|t0 r0 Q]; [destruct J|destruct J as [J|[]]; discriminate|destruct J as [J|[]]; discriminate].
      - destruct a as [q h w|q|r0]; cbn in J; try intuition discriminate. destruct J as [J|[]]. injection J as <- <-. auto. }
    constructor; cbn [p_tasks p_groups].
    + intros t' p Q'. destruct (put_at _ _ _ _ _ Q' TL) as [[-> ->]|[N Y]].
      * clear Q'. destruct TN as [e0 n0 osn0 u r t0 w gs1 ts1 a0 SN R Q G|x|t0 r Q].
        -- cbn [app] in *. rewrite C in G. destruct (i_task _ _ _ _ I _ _ Q) as [K|(v & od & K)].
           ++ left. eapply got_assoc; try eassumption.
              ** exact (nodup_exec _ _ _ _ _ _ X').
              ** exact (proj2 (ready_exec _ _ _ _ _ _ X')).
              ** intros k. exact (origin_exec _ _ _ _ _ _ k X' W).
           ++ right. exists v, od. eapply got_sensor; eassumption.
        -- destruct (i_new _ _ _ _ I (List.length (p_tasks s)) (le_n _)) as (A & B & _). destruct (SEEN (List.length (p_tasks s))) as [SQ SS]. rewrite Nat.eqb_refl in SQ, SS.
           assert (CL : In (n_now (p_net s), POCall (List.length (p_tasks s)) x) (tr ++ pstamp (n_now (p_net s)) (map PONet [] ++ [POCall (List.length (p_tasks s)) x] ++ tail_of (p_net s) (List.length (p_tasks s)) (start x)))) by (apply in_or_app; right; left; reflexivity).
           destruct x as [|v od].
           ++ left. split; [eauto|]. change (pc_of (p_net s) (start PAssoc)) with (PSusp (next (p_net s)) PGet). cbv iota beta. rewrite questions_app, sends_app, A, B, SQ, SS. split; reflexivity.
           ++ right. exists v, od. split; [eauto|]. rewrite questions_app, sends_app, A, B, SQ, SS. unfold start. destruct (Z.ltb_spec v 5); cbn; (split; [reflexivity|]); [left; auto|split; [reflexivity|split; [lia|reflexivity]]].
        -- destruct (i_task _ _ _ _ I _ _ Q) as [[[n1 CL] (ks & K1 & K2 & K3)]|(v & od & _ & _ & [])]. left. destruct (SEEN t0) as [SQ SS]. rewrite Nat.eqb_refl in SQ, SS.
           assert (KM : forall T os0, keys_ok gs0 t0 (tr ++ pstamp T os0) ks) by (intros; apply keys_more, K1). split; [exists n1; apply in_or_app; auto|]. destruct r as [b|x].
           ++ rewrite ask_group_is in *. cbn [pc_of]. exists ks. split; [apply KM|]. rewrite questions_app, sends_app, SQ, SS, K2, K3, map_app. cbn. rewrite C. split; reflexivity.
           ++ cbn [pc_of]. right; right; left. exists (n_now (p_net s)). apply in_or_app. right. left. reflexivity.
      * destruct (SEEN t') as [SQ SS]. destruct (Nat.eqb_spec t t') as [E|_]; [congruence|]. destruct (i_task _ _ _ _ I _ _ Y) as [K|(v & od & K)]; [left|right; exists v, od; apply sensor_keep; assumption].
        eapply course_keep; [exact K|exact SQ|exact SS|]. destruct TN as [e0 n0 osn0 u r t0 w gs1 ts1 a0 SN R Q G|x|t0 r Q]; [|left; reflexivity|left; reflexivity].
        destruct (got_keys _ _ _ _ _ _ _ _ G) as [_ [->|LN]]; [right|left; exact LN]. destruct (i_task _ _ _ _ I _ _ Q) as [[[n1 CL] _]|(v & od & _ & _ & [])]. exists n1, t0. split; [congruence|exact CL].
    + intros t' Q'. destruct (put_len t (pc_of n a) (p_tasks s)) as [PL1 PL2]. specialize (PL2 TL). destruct (i_new _ _ _ _ I t' ltac:(lia)) as (A & B & D). destruct (SEEN t') as [SQ SS]. destruct (Nat.eqb_spec t t') as [E|_]; [lia|].
      rewrite questions_app, sends_app, A, B, SQ, SS. split; [reflexivity|]. split; [reflexivity|]. intros n0 x J. apply in_app_or in J as [J|J]; [exact (D _ _ J)|]. destruct (CALLS _ _ _ J) as (-> & _). lia.
    + intros n0 t' r J. apply in_app_or in J as [J|J].
      * pose proof (i_done _ _ _ _ I _ _ _ J) as Y. apply other_put; [exact Y|]. intros ->. exact (NP _ Y).
      * destruct (DONES _ _ _ J) as [-> ->]. apply at_put, TL.
    + intros n0 n1 t' x x' J J'. apply in_app_or in J as [J|J]; apply in_app_or in J' as [J'|J'].
      * exact (i_call _ _ _ _ I _ _ _ _ _ J J').
      * destruct (CALLS _ _ _ J') as (-> & E & _). destruct (i_new _ _ _ _ I t ltac:(lia)) as (_ & _ & D). destruct (D _ _ J).
      * destruct (CALLS _ _ _ J) as (-> & E & _). destruct (i_new _ _ _ _ I t ltac:(lia)) as (_ & _ & D). destruct (D _ _ J').
      * destruct (CALLS _ _ _ J) as (_ & _ & E). destruct (CALLS _ _ _ J') as (_ & _ & E'). congruence.
Qed.
Lemma course_exec c gs0 ts0 es s tr : pexec (pstate0 c gs0 ts0) es s tr -> from_wire tr -> course c gs0 s tr.
Proof.
  induction 1 as [|es s tr e s' os X IH ST]; intros W.
  - constructor; cbn; try contradiction; try (intros [|?]; discriminate). auto.
  - eapply course_step; try eassumption. apply IH. exact (wire_app _ _ W).
Qed.
