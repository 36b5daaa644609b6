(** Proofs about the interviews of associations and sensors: the lifeline, and the statements in the words of SpecAssoc.v. *)
From Coq Require Import String ZArith List Bool Lia ZifyBool.
From Verif Require Import Py Schema Registry Codec Waiter Conn ConnLemmas NodeReq SpecNodeReq NodeReqProofs NodeFresh NodeM CmdClass AssocM SpecAssoc AssocProofs AssocData AssocFresh AssocCourse.
From Verif Require InterviewProofs InterviewVisit ClassProofs.
Import ListNotations.
Open Scope list_scope.
Open Scope string_scope.
Open Scope list_scope.
Open Scope Z_scope.

Lemma contains_controller l : contains l 1 0 = true <-> controller_in l.
Proof. exact (ClassProofs.contains_controller l). Qed.
Lemma life_send c gs q : lifeline c gs = QSend q -> q = life_q c /\ needed c gs.
Proof.
  rewrite lifeline_is. unfold needed, plus, supports. destruct (dmem Z.eqb 94 (n_supported c)); [|discriminate]. destruct (dget Z.eqb 1 gs) as [g|] eqn:E; [|discriminate]. destruct (contains (g_nodes g) 1 0) eqn:K; [discriminate|].
  intros H. injection H as <-. split; [reflexivity|]. split; [reflexivity|]. exists g. split; [reflexivity|]. intros J. apply contains_controller in J. congruence.
Qed.
Lemma life_none c gs r : lifeline c gs = QRes r -> r = Ok tt /\ ~ needed c gs.
Proof.
  rewrite lifeline_is. unfold needed, plus, supports. destruct (dmem Z.eqb 94 (n_supported c)); [|intros H; injection H as <-; split; [reflexivity|intros [? _]; discriminate]].
  destruct (dget Z.eqb 1 gs) as [g|] eqn:E; [|intros H; injection H as <-; split; [reflexivity|intros (_ & g & ? & _); discriminate]]. destruct (contains (g_nodes g) 1 0) eqn:K; [|discriminate].
  intros H. injection H as <-. split; [reflexivity|]. intros (_ & g' & E' & N). injection E' as <-. apply N, contains_controller, K.
Qed.
Lemma next_send c gs size rest q : next_group c gs size rest = QSend q -> q = life_q c /\ needed c gs.
Proof. unfold next_group. destruct (Nat.eqb _ _); [|discriminate]. destruct rest; [apply life_send|]. rewrite ask_group_is. discriminate. Qed.
Lemma next_none c gs size rest : next_group c gs size rest = QRes (Ok tt) -> ~ needed c gs.
Proof. unfold next_group. destruct (Nat.eqb _ _); [|discriminate]. destruct rest; [intros H; apply (life_none _ _ _ H)|]. rewrite ask_group_is. discriminate. Qed.
Lemma scale_not l q : next_scale l <> QSend q.
Proof. rewrite next_scale_is. destruct l; discriminate. Qed.
Lemma got_send c w r gs ts gs' ts' q : got c w r gs ts = (gs', ts', QSend q) -> q = life_q c /\ needed c gs'.
Proof.
  unfold got. intros H. destruct w as [|i size rest| |od|k rest], r as [m|e]; try discriminate.
  - destruct (to_int _) as [n|]; injection H as H1 H2 H3; [|discriminate]. subst gs'. exact (next_send _ _ _ _ _ H3).
  - destruct (record_group i m gs) as [g [[]|[]]]; injection H as H1 H2 H3; try discriminate; subst gs'; exact (next_send _ _ _ _ _ H3).
  - destruct e; injection H as H1 H2 H3; try discriminate; subst gs'; exact (next_send _ _ _ _ _ H3).
  - destruct (record_group 1 m gs). injection H as H1 H2 H3. discriminate.
  - destruct (getattr m "bitMask"); injection H as H1 H2 H3; try discriminate. destruct (scale_not _ _ H3).
  - destruct (to_int _); injection H as H1 H2 H3; [destruct (scale_not _ _ H3)|discriminate].
Qed.
Lemma got_none c w r gs ts gs' ts' : got c w r gs ts = (gs', ts', QRes (Ok tt)) -> w = PLast \/ (exists od, w = PSensors od) \/ (exists k rest, w = PScale k rest) \/ ~ needed c gs'.
Proof.
  unfold got. intros H. destruct w as [|i size rest| |od|k rest], r as [m|e]; eauto 6; right; right; right.
  - destruct (to_int _) as [n|]; injection H as H1 H2 H3; [|discriminate]. subst gs'. exact (next_none _ _ _ _ H3).
  - discriminate.
  - destruct (record_group i m gs) as [g [[]|[]]]; injection H as H1 H2 H3; try discriminate; subst gs'; exact (next_none _ _ _ _ H3).
  - destruct e; injection H as H1 H2 H3; try discriminate; subst gs'; exact (next_none _ _ _ _ H3).
Qed.
Lemma life_wire c : says (life_q c) (lifeline_command c) = true.
Proof. unfold life_q, lifeline_command, supports. destruct (dmem Z.eqb 96 (n_supported c)), (dmem Z.eqb 142 (n_supported c)); vm_compute; reflexivity. Qed.
Lemma life_step c gs ts es s tr e s' os t q : pexec (pstate0 c gs ts) es s tr -> pstep s e = Some (s', os) -> In (POSend t q) os -> needed c (p_groups s') /\ says q (lifeline_command c) = true.
Proof.
  intros X ST J. destruct (linked_exec _ _ _ _ _ _ X) as [L C].
  destruct (step_cases s e s' os ST) as [(e' & n & osn & -> & SN & -> & -> & NW)|(n & osn & t0 & hd & gs1 & ts1 & a & n' & TN & NA & -> & ->)].
  - apply in_map_iff in J as (? & J & _). discriminate.
  - apply in_app_or in J as [J|J]; [apply in_map_iff in J as (? & J & _); discriminate|].
    assert (A : a = QSend q).
    { apply in_app_or in J as [J|J]; [destruct TN; cbn in J; intuition discriminate|]. destruct a as [q' h w|q'|r]; cbn in J; try (intuition discriminate). destruct J as [J|[]]. injection J as <- <-. reflexivity. }
    subst a. cbn [p_groups]. inversion TN as [e0 n0 osn0 u r t1 w gs0 ts0 a0 H1 H2 H3 G|x E1 E2|t1 r Q E1 E2]; subst.
    + apply got_send in G as [-> G]. split; [exact G|apply life_wire].
    + destruct x as [|v od]; [discriminate|]. unfold start in *. destruct (v <? 5); discriminate.
    + destruct r as [b|x]; [|discriminate]. match goal with H : ask_group _ _ _ = QSend _ |- _ => rewrite ask_group_is in H; discriminate H end.
Qed.
Lemma life_done c gs ts es s tr e s' os t n0 : pexec (pstate0 c gs ts) es s tr -> pstep s e = Some (s', os) -> from_wire (tr ++ pstamp (n_now (p_net s)) os) -> In (n0, POCall t PAssoc) tr -> In (PODone t (Ok tt)) os ->
  sends t tr = [] -> ~ needed c (p_groups s').
Proof.
  intros X ST W CL J SE. destruct (linked_exec _ _ _ _ _ _ X) as [L C]. pose proof (course_exec _ _ _ _ _ _ X (wire_app _ _ W)) as I.
  destruct (step_cases s e s' os ST) as [(e' & n & osn & -> & SN & -> & -> & NW)|(n & osn & t0 & hd & gs1 & ts1 & a & n' & TN & NA & -> & ->)].
  - apply in_map_iff in J as (? & J & _). discriminate.
  - apply in_app_or in J as [J|J]; [apply in_map_iff in J as (? & J & _); discriminate|].
    assert (A : a = QRes (Ok tt) /\ t0 = t).
    { apply in_app_or in J as [J|J]; [destruct TN; cbn in J; intuition discriminate|]. destruct a as [q' h w|q'|r]; cbn in J; try (intuition discriminate). destruct J as [J|[]]. injection J as <- <-. auto. }
    destruct A as [-> ->]. cbn [p_groups]. inversion TN as [e0 n2 osn0 u r t1 w gs0 ts0 a0 H1 H2 Q G|x E1 E2|t1 r Q E1 E2]; subst.
    + destruct (i_task _ _ _ _ I _ _ Q) as [[_ K]|(v & od & [n3 K] & _)]; [|pose proof (i_call _ _ _ _ I _ _ _ _ _ CL K); discriminate].
      destruct (got_none _ _ _ _ _ _ _ G) as [->|[[od ->]|[(k & rest & ->)|N]]]; [|destruct K|destruct K|exact N]. destruct K as (ks & _ & _ & K). rewrite SE in K. discriminate.
    + destruct (i_new _ _ _ _ I (List.length (p_tasks s)) (le_n _)) as (_ & _ & D). destruct (D _ _ CL).
    + destruct r as [b|x]; [|discriminate]. match goal with H : ask_group _ _ _ = QRes _ |- _ => rewrite ask_group_is in H; discriminate H end.
Qed.

(** ** in the words of SpecAssoc.v *)
Lemma asks_map c l : asks_groups c (q0 :: map (group_q c) l) l.
Proof.
  exists q0, (map (group_q c) l). split; [reflexivity|]. split; [exact count_wire|]. induction l as [|i l IH]; constructor; [apply group_wire|exact IH].
Qed.
Lemma scales_map l : asks_scales (sq :: map scale_q l) l.
Proof.
  exists sq, (map scale_q l). split; [reflexivity|]. split; [exact sensor_wire|]. induction l as [|i l IH]; constructor; [apply scale_wire|exact IH].
Qed.
Lemma assoc_end c gs ts es s tr t n n' r : pexec (pstate0 c gs ts) es s tr -> from_wire tr -> In (n, POCall t PAssoc) tr -> In (n', PODone t r) tr -> assoc_course c gs (List.length (p_groups s)) tr t (PEnd r).
Proof.
  intros X W CL D. pose proof (course_exec _ _ _ _ _ _ X W) as I. destruct (i_task _ _ _ _ I _ _ (i_done _ _ _ _ I _ _ _ D)) as [K|(v & od & [n3 K] & _)]; [exact K|]. pose proof (i_call _ _ _ _ I _ _ _ _ _ CL K). discriminate.
Qed.
Lemma sensor_end c gs ts es s tr t n n' v od r : pexec (pstate0 c gs ts) es s tr -> from_wire tr -> In (n, POCall t (PSensor v od)) tr -> In (n', PODone t r) tr -> sensor_course v od tr t (PEnd r).
Proof.
  intros X W CL D. pose proof (course_exec _ _ _ _ _ _ X W) as I. destruct (i_task _ _ _ _ I _ _ (i_done _ _ _ _ I _ _ _ D)) as [[[n3 K] _]|(v' & od' & K)]; [pose proof (i_call _ _ _ _ I _ _ _ _ _ CL K); discriminate|].
  destruct K as [[n3 K] K']. pose proof (i_call _ _ _ _ I _ _ _ _ _ CL K) as E. injection E as <- <-. split; [eauto|exact K'].
Qed.
Lemma groups_asked c gs ts es s tr t n n' : pexec (pstate0 c gs ts) es s tr -> from_wire tr -> In (n, POCall t PAssoc) tr -> In (n', PODone t (Ok tt)) tr ->
  exists ks extra, asks_groups c (questions t tr) (ks ++ extra) /\ (NoDup (map fst gs) -> NoDup ks) /\ incl (map fst gs) ks /\ (forall k, In k ks -> In k (map fst gs) \/ counted k tr = true) /\
    (exists m z, got_back t count_question (RMsg m) tr /\ number "supportedGroupings" m = [z] /\ forall i, 1 <= i <= z -> In i ks) /\
    (extra = [] /\ sends t tr = [] \/ extra = [1] /\ exists q, sends t tr = [q] /\ says q (lifeline_command c) = true).
Proof.
  intros X W CL D. destruct (assoc_end _ _ _ _ _ _ _ _ _ _ X W CL D) as [_ (ks & (K1 & K2 & K3 & K4) & B)]. destruct B as [[Q S]|(Q & S & _)].
  - exists ks, []. rewrite Q, S, app_nil_r. split; [apply asks_map|]. do 4 (split; [assumption|]). left. auto.
  - exists ks, [1]. rewrite Q, S. split; [apply asks_map|]. do 4 (split; [assumption|]). right. split; [reflexivity|]. exists (life_q c). split; [reflexivity|apply life_wire].
Qed.
Lemma groups_failed c gs ts es s tr t n n' e : pexec (pstate0 c gs ts) es s tr -> from_wire tr -> In (n, POCall t PAssoc) tr -> In (n', PODone t (Err e)) tr -> assoc_cause c t e tr.
Proof. intros X W CL D. exact (proj2 (assoc_end _ _ _ _ _ _ _ _ _ _ X W CL D)). Qed.
(** where tasks that have sent the command are *)
Definition after (c : classes) (tr : ptrace) (t : nat) (p : ppc) : Prop :=
  match p with
  | PSending => exists a n q b, tr = a ++ (n, POSend t q) :: b
  | PSusp u PLast => exists a n q b n', tr = a ++ (n, POSend t q) :: b /\ In (n', POAsk t u (group_q c 1)) b
  | PEnd (Ok _) => sends t tr <> [] -> exists m, back c t m tr
  | _ => True
  end.
Lemma after_more c tr t p T os : after c tr t p -> sends t (pstamp T os) = [] -> after c (tr ++ pstamp T os) t p.
Proof.
  destruct p as [u [| | | |]| |[x0|x0]]; cbn [after]; auto.
  - intros (a & n & q & b & n' & -> & J) _. exists a, n, q, (b ++ pstamp T os), n'. rewrite <- app_assoc. split; [reflexivity|]. apply in_or_app. auto.
  - intros (a & n & q & b & ->) _. exists a, n, q, (b ++ pstamp T os). rewrite <- app_assoc. reflexivity.
  - intros H E. rewrite sends_app, E, app_nil_r. intros N. destruct (H N) as (m & a & n & q & b & -> & (n1 & n2 & u & q' & J1 & J2 & J3)). exists m, a, n, q, (b ++ pstamp T os). rewrite <- app_assoc. split; [reflexivity|].
    exists n1, n2, u, q'. split; [apply in_or_app; auto|]. split; [exact J2|apply in_or_app; auto].
Qed.
Lemma not_last c q h gs size rest : next_group c gs size rest <> QAsk q h PLast.
Proof.
  unfold next_group. intros E. destruct (Nat.eqb (List.length gs) size); [|discriminate E]. destruct rest as [|i rest].
  - rewrite lifeline_is in E. destruct (supports c 94); [|discriminate E]. destruct (dget Z.eqb 1 gs) as [g|]; [|discriminate E]. destruct (contains _ _ _); discriminate E.
  - rewrite ask_group_is in E. injection E as _ _ E. discriminate E.
Qed.
Lemma scale_not_last q h l : next_scale l <> QAsk q h PLast.
Proof. rewrite next_scale_is. intros E. destruct l; [discriminate E|]. injection E as _ _ E. discriminate E. Qed.
Lemma after_exec c gs ts es s tr : pexec (pstate0 c gs ts) es s tr -> from_wire tr -> forall t p, nth_error (p_tasks s) t = Some p -> after c tr t p.
Proof.
  induction 1 as [|es s tr e s' os X IH ST]; intros W t p Q; [destruct t; discriminate|]. specialize (IH (wire_app _ _ W)). destruct (linked_exec _ _ _ _ _ _ X) as [L C]. pose proof (course_exec _ _ _ _ _ _ X (wire_app _ _ W)) as I.
  destruct (step_cases s e s' os ST) as [(e' & n & osn & -> & SN & -> & -> & NW)|(n & osn & t0 & hd & gs1 & ts1 & a & n' & TN & NA & -> & ->)]; cbn [p_tasks] in Q.
  - apply after_more; [exact (IH _ _ Q)|]. exact (proj2 (nets_quiet _ _ _)).
  - pose proof (turn_len _ _ _ _ _ _ _ _ _ TN) as TL. destruct (turn_seen _ _ _ _ _ _ _ _ _ (n_now (p_net s)) t TN) as [SQ SS]. destruct (put_at _ _ _ _ _ Q TL) as [[-> ->]|[N Y]].
    2:{ apply after_more; [exact (IH _ _ Y)|]. rewrite SS. destruct (Nat.eqb_spec t0 t); [congruence|reflexivity]. }
    rewrite Nat.eqb_refl in SS. inversion TN as [e0 n2 osn0 u r t1 w gs0 ts0 a0 H1 H2 Q0 G|x E1 E2|t1 r Q0 E1 E2]; subst.
    + destruct a as [q h w2|q|[[]|x]]; cbn [pc_of after]; [|eexists _, _, _, _; unfold pstamp; rewrite !map_app, !app_assoc; reflexivity| |exact Coq.Init.Logic.I].
      * destruct w2; try exact Coq.Init.Logic.I. exfalso. unfold got, next_group in G. rewrite ?ask_group_is, ?next_scale_is in G.
        pose proof (not_last (p_cls s) q h) as NG. pose proof (scale_not_last q h) as NS.
        destruct w as [|i size rest| |od|k rest], (value_of r) as [m|e1]; try discriminate G.
        -- destruct (to_int _) as [z|]; injection G as G1 G2 G3; [exact (NG _ _ _ G3)|discriminate].
        -- destruct (record_group i m _) as [g [[]|[]]]; injection G as G1 G2 G3; try discriminate; exact (NG _ _ _ G3).
        -- destruct e1; injection G as G1 G2 G3; try discriminate; exact (NG _ _ _ G3).
        -- destruct (record_group 1 m _). injection G as G1 G2 G3. discriminate.
        -- destruct (getattr m "bitMask"); injection G as G1 G2 G3; try discriminate. exact (NS _ G3).
        -- destruct (to_int _); injection G as G1 G2 G3; [exact (NS _ G3)|discriminate].
      * rewrite sends_app, SS. cbn [s_of]. rewrite app_nil_r. intros SE.
        assert (w = PLast) as ->.
        { destruct (i_task _ _ _ _ I _ _ Q0) as [[_ K]|(v & od & _ & K & _)]; [|destruct (SE K)]. destruct w as [|i size rest| |od|k rest]; try reflexivity; try (destruct K; fail); exfalso.
          - destruct K as [_ K]. exact (SE K).
          - destruct K as (pre & _ & _ & K & _). exact (SE K). }
        destruct (IH _ _ Q0) as (a & n1 & q & b & n3 & -> & J). destruct r as [b0|m|e1]; try discriminate G. exists m, a, n1, q, (b ++ pstamp (n_now (p_net s)) (map PONet osn ++ [PODone t0 (Ok tt)])). rewrite <- app_assoc. split; [reflexivity|].
        exists n3, (n_now (p_net s)), u, (group_q (p_cls s) 1). split; [apply in_or_app; auto|]. split; [apply group_wire; unfold byte; lia|]. apply in_or_app. right. apply in_map. apply in_or_app. left. apply in_map.
        destruct (turn_net _ _ _ _ _ _ _ _ _ TN) as (_ & _ & _ & _ & [(_ & _ & F)|(e' & u' & r' & w & _ & _ & Q1 & R1 & _ & R2)]); [destruct (F _ _ Q0)|]. rewrite H2 in R1. injection R1 as <- <-. exact R2.
    + destruct x as [|v od]; [exact Coq.Init.Logic.I|]. unfold start in *. destruct (v <? 5); [|exact Coq.Init.Logic.I]. cbn [pc_of after]. rewrite sends_app, SS, (proj1 (proj2 (i_new _ _ _ _ I _ (le_n _)))). intros SE. destruct (SE eq_refl).
    + destruct r as [b0|x]; [|exact Coq.Init.Logic.I]. rewrite ask_group_is. cbn [pc_of after tail_of]. destruct (IH _ _ Q0) as (a & n1 & q & b & E). rewrite E. eexists a, n1, q, (b ++ _), (n_now (p_net s)). rewrite <- app_assoc. split; [reflexivity|]. apply in_or_app. right. right. left. reflexivity.
Qed.
Lemma read_back c gs ts es s tr t n' : pexec (pstate0 c gs ts) es s tr -> from_wire tr -> In (n', PODone t (Ok tt)) tr -> sends t tr <> [] -> exists m, back c t m tr.
Proof. intros X W D. pose proof (course_exec _ _ _ _ _ _ X W) as I. exact (after_exec _ _ _ _ _ _ X W _ _ (i_done _ _ _ _ I _ _ _ D)). Qed.
Lemma scales_asked c gs ts es s tr t n n' v od : pexec (pstate0 c gs ts) es s tr -> from_wire tr -> In (n, POCall t (PSensor v od)) tr -> In (n', PODone t (Ok tt)) tr ->
  (v < 5 /\ questions t tr = []) \/
  (5 <= v /\ exists m l, got_back t sensor_question (RMsg m) tr /\ getattr m "bitMask" = VSensors l /\ asks_scales (questions t tr) (od l) /\
     forall k, In k (od l) -> byte k -> exists m' z, got_back t (scale_question k) (RMsg m') tr /\ number "scaleBitMask" m' = [z]).
Proof.
  intros X W CL D. destruct (sensor_end _ _ _ _ _ _ _ _ _ _ _ _ X W CL D) as (_ & _ & [B|(V & l & (m & l0 & B1 & B2 & ->) & B3 & B4)]); [left; exact B|right]. split; [exact V|]. exists m, l0. rewrite B3.
  split; [exact B1|]. split; [exact B2|]. split; [apply scales_map|]. intros k J. rewrite Forall_forall in B4. exact (B4 k J).
Qed.
Lemma scales_failed c gs ts es s tr t n n' v od e : pexec (pstate0 c gs ts) es s tr -> from_wire tr -> In (n, POCall t (PSensor v od)) tr -> In (n', PODone t (Err e)) tr -> 5 <= v /\ sensor_cause t e tr.
Proof. intros X W CL D. exact (proj2 (proj2 (sensor_end _ _ _ _ _ _ _ _ _ _ _ _ X W CL D))). Qed.
(** with a node that answers what was asked last, the last answer about a group is what is known about it *)
Lemma group_prompt c gs ts es s tr i l m : pexec (pstate0 c gs ts) es s tr -> from_wire tr -> byte i -> one_at_a_time (group_question c) tr -> prompt_node (group_question c) (group_report c) "groupingIdentifier" tr ->
  answers (group_question c i) tr = l ++ [m] ->
  number "groupingIdentifier" m = [i] /\
  forall mx, number "maxNodesSupported" m = [mx] -> dget Z.eqb i (p_groups s) = Some (mkG mx (match getattr m "nodes" with VNodes l => l | _ => [] end)).
Proof.
  intros X W B O P A. assert (N : number "groupingIdentifier" m = [i]).
  { apply (prompt_named (group_question c) (group_report c) "groupingIdentifier" tr i m (group_apart c) O P). apply (group_fresh _ _ _ _ _ _ _ _ X B). rewrite A. apply in_or_app. right. left. reflexivity. }
  split; [exact N|]. intros mx M. destruct (tables_exec _ _ _ _ _ _ X W) as [T _]. destruct (T i B) as [T1 T2]. unfold has in T2. rewrite T1 in T2. rewrite T1. unfold known_group in *.
  destruct (dmem Z.eqb i gs || counted i tr); [|destruct (T2 ltac:(rewrite A; destruct l; discriminate) eq_refl)].
  rewrite A, flat_map_app. cbn [flat_map]. rewrite app_nil_r. unfold about at 2. rewrite N, M, Z.eqb_refl, last_snoc. reflexivity.
Qed.
Lemma scale_prompt c gs ts es s tr k m : pexec (pstate0 c gs ts) es s tr -> byte k -> one_at_a_time scale_question tr -> prompt_node scale_question scale_report "sensorType" tr -> In m (answers (scale_question k) tr) -> number "sensorType" m = [k].
Proof. intros X B O P J. apply (prompt_named scale_question scale_report "sensorType" tr k m scale_apart O P). apply (scale_fresh _ _ _ _ _ _ _ _ X B J). Qed.
Lemma recv_event s0 es s tr n m r : pexec s0 es s tr -> In (n, PONet (NRecv m r)) tr -> In (PNet (NEvMessage m)) es.
Proof.
  induction 1 as [|es s tr e s' os X IH ST]; intros J; [destruct J|]. apply in_or_app. apply in_app_or in J as [J|J]; [auto|]. right. left. apply in_stamp in J as [_ J].
  assert (G : forall e' n0 osn, nstep (p_net s) e' = Some (n0, osn) -> In (NRecv m r) osn -> e' = NEvMessage m).
  { intros e' n0 osn H K. destruct e' as [dt|c|t v|m0|t|t|t]; cbn [nstep] in H.
    - destruct (0 <=? dt); [|discriminate]. injection H as <- <-. destruct K.
    - destruct c as [h tmo|h tmo].
      + destruct (add_session h _) as [f w]. injection H as <- <-. destruct K as [K|[]]; discriminate.
      + injection H as <- <-. destruct K as [K|[]]; discriminate.
    - destruct (nth_error _ t) as [[[h tmo|h tmo] []]|]; try discriminate. unfold n_finish in H. destruct v as [[]|e0]; injection H as <- <-; cbn in K; intuition discriminate.
    - destruct m0; try discriminate. destruct (message_received _ _) as [w r0]. injection H as <- <-. destruct K as [K|[]]; congruence.
    - destruct (nth_error _ t) as [[c [|h f dl []|h f|r0]]|]; try discriminate. destruct (dl <=? _); [|discriminate]. injection H as <- <-. destruct K.
    - destruct (nth_error _ t) as [[c [|h f dl ph|h f|r0]]|]; try discriminate.
      + unfold n_resume, n_finish in H. destruct (nth_error _ f) as [[|v|]|], ph; try discriminate; injection H as <- <-; cbn in K; intuition discriminate.
      + unfold n_finish in H. injection H as <- <-. cbn in K; intuition discriminate.
    - destruct (nth_error _ t) as [[c [|h f dl ph|h f|r0]]|]; try discriminate; unfold n_finish in H; injection H as <- <-; cbn in K; intuition discriminate. }
  destruct (step_cases s e s' os ST) as [(e' & n0 & osn & -> & SN & -> & -> & NW)|(n0 & osn & t0 & hd & gs1 & ts1 & a & n' & TN & NA & -> & ->)].
  - apply in_map_iff in J as (o & E & J). injection E as ->. rewrite (G _ _ _ SN J). reflexivity.
  - destruct (turn_net _ _ _ _ _ _ _ _ _ TN) as (_ & _ & _ & HO & NS). apply in_app_or in J as [J|J].
    + apply in_map_iff in J as (o & E & J). injection E as ->. destruct NS as [(_ & -> & _)|(e' & u' & r' & w & -> & SN & _)]; [destruct J|]. rewrite (G _ _ _ SN J). reflexivity.
    + exfalso. apply in_app_or in J as [J|J]; [exact (HO _ J)|]. destruct a; cbn in J; intuition discriminate.
Qed.
Lemma one_ask Q tr : (List.length (filter (fun x => match x with (_, POAsk _ _ _) => true | _ => false end) tr) <= 1)%nat -> one_at_a_time Q tr.
Proof.
  intros L a n t u q i b n' r c -> A n2 t2 u2 q2 i2 J. exfalso. apply in_split in J as (b1 & b2 & ->). revert L. rewrite filter_app, app_length. cbn [filter]. rewrite filter_app. cbn [List.length]. rewrite app_length, filter_app, app_length. cbn [filter List.length]. lia.
Qed.
