(** Proofs about association group information. *)
From Coq Require Import String ZArith List Bool Lia.
From Verif Require Import Py Schema Registry Codec StorageM SpecStorage GrpInfoM SpecGrpInfo.
From Verif Require ClassProofs StorageProofs.
Import ListNotations.
Open Scope list_scope.
Open Scope string_scope.
Open Scope list_scope.
Open Scope Z_scope.

(** ** Small facts *)
Lemma dget_dset_Z {A} k k' (v : A) d : dget Z.eqb k (dset Z.eqb k' v d) = if k =? k' then Some v else dget Z.eqb k d.
Proof.
  induction d as [|[j w] d IH]; cbn; [reflexivity|].
  destruct (Z.eqb_spec k' j) as [->|N]; cbn.
  - destruct (Z.eqb_spec k j); reflexivity.
  - destruct (Z.eqb_spec k j) as [->|M]; [|exact IH]. destruct (Z.eqb_spec j k'); [congruence|reflexivity].
Qed.
Lemma nth_set {A} t t' (x : A) l : nth_error (set_nth t x l) t' = if Nat.eqb t' t then match nth_error l t with Some _ => Some x | None => None end else nth_error l t'.
Proof.
  revert t t'. induction l as [|y l IH]; intros [|t] [|t']; cbn; try reflexivity.
  - destruct (Nat.eqb t' t); reflexivity.
  - apply IH.
Qed.
Lemma set_length {A} t (x : A) l : List.length (set_nth t x l) = List.length l.
Proof. revert t. induction l as [|y l IH]; intros [|t]; cbn; try reflexivity. now rewrite IH. Qed.
Lemma sends_app t a b : sends t (a ++ b) = sends t a ++ sends t b.
Proof. apply flat_map_app. Qed.
Lemma questions_app a b : questions (a ++ b) = questions a ++ questions b.
Proof. apply flat_map_app. Qed.
Lemma questions_len gs : List.length (questions gs) = (2 * List.length gs)%nat.
Proof. induction gs as [|x gs IH]; [reflexivity|]. change (questions (x :: gs)) with (Ok [89; 1; fst x] :: Ok [89; 5; 128; fst x] :: questions gs). cbn [List.length]. rewrite IH. lia. Qed.

Lemma name_bytes k q : 0 <= k < 256 -> new_msg m_AssociationGrpInfo_GroupNameGet [("groupingIdentifier", VI false 1 k)] = Ok q -> compose q = Ok [89; 1; k].
Proof.
  intros K E. injection E as <-.
  apply (ClassProofs.every_byte (fun k => compose (VObj (CMsg m_AssociationGrpInfo_GroupNameGet) [("groupingIdentifier", VI false 1 k)])) (fun k => Ok [89; 1; k])); [vm_compute; reflexivity|exact K].
Qed.
Lemma commands_bytes k q : 0 <= k < 256 -> new_msg m_AssociationGrpInfo_GroupCommandListGet [("allowCache", VBool true); ("groupingIdentifier", VI false 1 k)] = Ok q -> compose q = Ok [89; 5; 128; k].
Proof.
  intros K E. injection E as <-.
  apply (ClassProofs.every_byte (fun k => compose (VObj (CMsg m_AssociationGrpInfo_GroupCommandListGet) [("allowCache", VF 1); ("groupingIdentifier", VI false 1 k)])) (fun k => Ok [89; 5; 128; k])); [vm_compute; reflexivity|exact K].
Qed.
Lemma entry_unique e g p g' p' : entry e g p -> entry e g' p' -> g = g' /\ p = p'.
Proof. intros (_ & d & -> & A & B) (_ & d' & E & A' & B'). injection E as <-. split; congruence. Qed.
Lemma entries_unique es gs gs' : Forall2 (fun e x => entry e (fst x) (snd x)) es gs -> Forall2 (fun e x => entry e (fst x) (snd x)) es gs' -> gs = gs'.
Proof.
  intros F. revert gs'. induction F as [|e [g p] es gs E F IH]; intros gs' F'; inversion F' as [|e' [g' p'] es' gs2 E' F2]; subst; [reflexivity|].
  destruct (entry_unique _ _ _ _ _ E E') as [A B]. cbn in A, B. subst. now rewrite (IH gs2 F2).
Qed.
Lemma advertises_unique m gs gs' : advertises m gs -> advertises m gs' -> gs = gs'.
Proof. intros (es & E & F) (es' & E' & F'). rewrite E in E'. injection E' as <-. exact (entries_unique _ _ _ F F'). Qed.
Lemma entry_reads e g p : entry e g p -> entry_int e "groupingIdentifier" = Ok g /\ entry_int e "profile" = Ok p.
Proof. intros (_ & d & -> & A & B). unfold entry_int. rewrite A, B. split; reflexivity. Qed.

(** ** What one step adds to the knowledge about a group *)
Lemma last_quiet {V} (P : aobs -> V -> Prop) i a b v : last_of P i a v -> (forall o x, In o b -> ~ P o x) -> last_of P i (a ++ b) v.
Proof.
  intros [(a1 & o & b1 & x & -> & K & E & N)|[E N]] Q.
  - left. exists a1, o, (b1 ++ b), x. split; [now rewrite <- app_assoc|]. split; [exact K|]. split; [exact E|]. intros o' x' I. apply in_app_iff in I as [I|I]; [exact (N _ _ I)|exact (Q _ _ I)].
  - right. split; [exact E|]. intros o x I. apply in_app_iff in I as [I|I]; [exact (N _ _ I)|exact (Q _ _ I)].
Qed.
Lemma last_new {V} (P : aobs -> V -> Prop) i a o b x : P o x -> (forall o' x', In o' b -> ~ P o' x') -> last_of P i (a ++ o :: b) (Some x).
Proof. intros K N. left. exists a, o, b, x. auto. Qed.

Definition quiet_names (g : Z) (os : list aobs) : Prop := forall o x, In o os -> ~ names g o x.
Definition quiet_lists (g : Z) (os : list aobs) : Prop := forall o x, In o os -> ~ lists g o x.
Definition quiet_asks (g : Z) (os : list aobs) : Prop := forall o, In o os -> ~ asks_name o g.

(** the group stays or becomes known as [r'] when the observations [os] follow *)
Lemma known_more g r0 tr os r r' : known_as g r0 tr r -> quiet_asks g os -> gr_profile r' = gr_profile r ->
  (forall i a, last_of (names g) i a (gr_name r) -> last_of (names g) i (a ++ os) (gr_name r')) ->
  (forall i a, last_of (lists g) i a (gr_commands r) -> last_of (lists g) i (a ++ os) (gr_commands r')) -> known_as g r0 (tr ++ os) r'.
Proof.
  intros [(a & o & b & -> & T & N & LN & LL)|(r1 & -> & N & P & LN & LL)] Q E HN HL.
  - left. exists a, o, (b ++ os). split; [now rewrite <- app_assoc|]. rewrite E. split; [exact T|].
    split; [intros o' I; apply in_app_iff in I as [I|I]; [exact (N _ I)|exact (Q _ I)]|]. split; [exact (HN _ _ LN)|exact (HL _ _ LL)].
  - right. exists r1. split; [reflexivity|]. split; [intros o' I; apply in_app_iff in I as [I|I]; [exact (N _ I)|exact (Q _ I)]|].
    split; [congruence|]. split; [exact (HN _ _ LN)|exact (HL _ _ LL)].
Qed.
Definition known (gs0 : groupings) (tr : list aobs) (gs : groupings) : Prop := forall g,
  match dget Z.eqb g gs with
  | Some r => known_as g (dget Z.eqb g gs0) tr r
  | None => dget Z.eqb g gs0 = None /\ forall o, In o tr -> ~ asks_name o g
  end.
Lemma known_quiet gs0 tr gs os : known gs0 tr gs -> (forall g, quiet_asks g os) -> (forall g, dmem Z.eqb g gs = true -> quiet_names g os /\ quiet_lists g os) ->
  known gs0 (tr ++ os) gs.
Proof.
  intros K Q H g. specialize (K g). specialize (H g). unfold dmem in H. destruct (dget Z.eqb g gs) as [r|].
  - destruct (H eq_refl) as [QN QL]. apply (known_more g _ _ _ r r K (Q g) eq_refl); intros i a L; apply last_quiet; auto.
  - destruct K as [K N]. split; [exact K|]. intros o I. apply in_app_iff in I as [I|I]; [exact (N _ I)|exact (Q _ _ I)].
Qed.

(** ** Tasks *)
Definition entries (es : list val) (gs : list (Z * Z)) : Prop := Forall2 (fun e x => entry e (fst x) (snd x)) es gs.
Definition info_ok (t : nat) (gs : list (Z * Z)) (p : apc) (tr : list aobs) : Prop :=
  match p with
  | PName k rest => exists gs1 x gs2, gs = gs1 ++ (k, x) :: gs2 /\ sends t tr = questions gs1 ++ [Ok [89; 1; k]] /\ entries rest gs2 /\ 0 <= k < 256
  | PCommands rest => exists gs1 gs2, gs = gs1 ++ gs2 /\ sends t tr = questions gs1 /\ entries rest gs2
  | PEnd (Ok b) => b = true /\ sends t tr = questions gs
  | PEnd (Err _) => exists n, sends t tr = firstn n (questions gs)
  | PInterview => False
  end.
Definition task_ok (t : nat) (c : acall) (p : apc) (tr : list aobs) : Prop :=
  match c with
  | CName m | CCommands m => (exists r, p = PEnd r) /\ sends t tr = []
  | CInfo m => exists gs, advertises m gs /\ info_ok t gs p tr
  | CInterview => (p = PInterview \/ exists r, p = PEnd r) /\ sends t tr = [Ok [89; 3; 64; 0]]
  end.
Record inv (gs0 : groupings) (s : astate) (tr : list aobs) : Prop := mkInv {
  i_known : known gs0 tr (a_groups s);
  i_task : forall t p, nth_error (a_tasks s) t = Some p -> exists c, In (OCall t c) tr /\ task_ok t c p tr;
  i_low : forall t c, In (OCall t c) tr -> (t < List.length (a_tasks s))%nat;
  i_once : forall t c c', In (OCall t c) tr -> In (OCall t c') tr -> c = c';
  i_new : forall t, (List.length (a_tasks s) <= t)%nat -> sends t tr = [];
  i_end : forall t r, In (OEnd t r) tr <-> nth_error (a_tasks s) t = Some (PEnd r) }.

(** the observations of one task *)
Definition own (t : nat) (o : aobs) : bool := match o with OCall t' _ | OSend t' _ | OEnd t' _ => Nat.eqb t' t | OSaved => true end.
Lemma sends_other t t' os : forallb (own t) os = true -> t' <> t -> sends t' os = [].
Proof.
  intros F N. induction os as [|o os IH]; [reflexivity|]. cbn in F. apply andb_prop in F as [A B]. change (sends t' (o :: os)) with (sends t' ([o] ++ os)). rewrite sends_app, (IH B).
  destruct o; cbn in *; try reflexivity. apply Nat.eqb_eq in A. subst. destruct (Nat.eqb_spec t t'); [congruence|reflexivity].
Qed.
Lemma task_same t c p a b : task_ok t c p a -> sends t b = [] -> task_ok t c p (a ++ b).
Proof.
  intros K E. assert (S : sends t (a ++ b) = sends t a) by (rewrite sends_app, E; apply app_nil_r). unfold task_ok, info_ok in *. rewrite S. exact K.
Qed.
Definition ends (t : nat) (p : apc) (os : list aobs) : Prop := forall t' r, In (OEnd t' r) os <-> t' = t /\ p = PEnd r.
Lemma inv_step gs0 s tr s' os t p0 p : inv gs0 s tr -> nth_error (a_tasks s) t = Some p0 -> (forall r, p0 <> PEnd r) ->
  a_tasks s' = set_nth t p (a_tasks s) -> forallb (own t) os = true -> (forall t' c, ~ In (OCall t' c) os) -> ends t p os ->
  (forall c, In (OCall t c) tr -> task_ok t c p0 tr -> task_ok t c p (tr ++ os)) -> known gs0 (tr ++ os) (a_groups s') -> inv gs0 s' (tr ++ os).
Proof.
  intros I T NE A O NC EN K G. assert (L : (t < List.length (a_tasks s))%nat) by (apply nth_error_Some; congruence). constructor.
  - exact G.
  - intros t' p' T'. rewrite A, nth_set, T in T'. destruct (Nat.eqb_spec t' t) as [->|N].
    + injection T' as <-. destruct (i_task _ _ _ I t p0 T) as (c & C & X). exists c. split; [apply in_or_app; auto|exact (K c C X)].
    + destruct (i_task _ _ _ I t' p' T') as (c & C & X). exists c. split; [apply in_or_app; auto|]. apply task_same; [exact X|]. exact (sends_other t t' os O N).
  - intros t' c J. rewrite A, set_length. apply in_app_iff in J as [J|J]; [exact (i_low _ _ _ I _ _ J)|destruct (NC _ _ J)].
  - intros t' c c' J J'. apply in_app_iff in J as [J|J]; [|destruct (NC _ _ J)]. apply in_app_iff in J' as [J'|J']; [|destruct (NC _ _ J')]. exact (i_once _ _ _ I _ _ _ J J').
  - intros t' J. rewrite A, set_length in J. rewrite sends_app, (i_new _ _ _ I _ J). apply (sends_other t t' os O). lia.
  - intros t' r. rewrite A, nth_set, T. rewrite in_app_iff, (i_end _ _ _ I), (EN t' r). destruct (Nat.eqb_spec t' t) as [->|N].
    + rewrite T. split; [intros [H|[_ ->]]; [injection H as ->; destruct (NE r eq_refl)|reflexivity]|]. intros [= ->]. auto.
    + split; [intros [H|[-> _]]; [exact H|congruence]|auto].
Qed.
Lemma inv_call gs0 s tr s' os c p : inv gs0 s tr -> a_tasks s' = a_tasks s ++ [p] -> let t := List.length (a_tasks s) in
  forallb (own t) os = true -> (forall t' c, ~ In (OCall t' c) os) -> ends t p os ->
  task_ok t c p (tr ++ OCall t c :: os) -> known gs0 (tr ++ OCall t c :: os) (a_groups s') -> inv gs0 s' (tr ++ OCall t c :: os).
Proof.
  intros I A t O NC EN K G. assert (O' : forallb (own t) (OCall t c :: os) = true) by (cbn; rewrite Nat.eqb_refl; exact O). constructor.
  - exact G.
  - intros t' p' T'. rewrite A in T'. destruct (Nat.lt_ge_cases t' t) as [L|L].
    + rewrite nth_error_app1 in T' by exact L. destruct (i_task _ _ _ I t' p' T') as (c' & C & X). exists c'. split; [apply in_or_app; auto|].
      apply task_same; [exact X|]. apply (sends_other t); [exact O'|lia].
    + rewrite nth_error_app2 in T' by exact L. fold t in T'. destruct (t' - t)%nat eqn:D; [|destruct n; discriminate T']. injection T' as <-. assert (t' = t) by lia. subst t'.
      exists c. split; [apply in_or_app; right; left; reflexivity|exact K].
  - intros t' c' J. rewrite A, app_length. cbn. apply in_app_iff in J as [J|[J|J]]; [pose proof (i_low _ _ _ I _ _ J); lia|injection J as <- _; fold t; lia|destruct (NC _ _ J)].
  - assert (F : forall t' c', In (OCall t' c') (tr ++ OCall t c :: os) -> (t' = t /\ c' = c) \/ (t' < t)%nat /\ In (OCall t' c') tr).
    { intros t' c' J. apply in_app_iff in J as [J|[J|J]]; [right; split; [exact (i_low _ _ _ I _ _ J)|exact J]|injection J as <- <-; auto|destruct (NC _ _ J)]. }
    intros t' c1 c2 J1 J2. destruct (F _ _ J1) as [[E1 ->]|[L1 K1]]; destruct (F _ _ J2) as [[E2 ->]|[L2 K2]]; try lia; [reflexivity|]. exact (i_once _ _ _ I _ _ _ K1 K2).
  - intros t' J. rewrite A, app_length in J. cbn in J. rewrite sends_app, (i_new _ _ _ I) by lia. apply (sends_other t); [exact O'|subst t; lia].
  - intros t' r. rewrite A, in_app_iff, (i_end _ _ _ I). cbn [In]. rewrite (EN t' r). split.
    + intros [H|[H|[-> ->]]]; [|discriminate H|]; [rewrite nth_error_app1 by (apply nth_error_Some; congruence); exact H|]. rewrite nth_error_app2 by (subst t; lia). subst t. rewrite Nat.sub_diag. reflexivity.
    + intros H. destruct (Nat.lt_ge_cases t' t) as [L|L]; [rewrite nth_error_app1 in H by exact L; auto|]. right. right.
      rewrite nth_error_app2 in H by exact L. fold t in H. destruct (t' - t)%nat eqn:D; [|destruct n; discriminate H]. injection H as ->. split; [lia|reflexivity].
Qed.
Lemma set_last {A} (l : list A) x y : set_nth (List.length l) x (l ++ [y]) = l ++ [x].
Proof. induction l as [|z l IH]; cbn; [reflexivity|]. now rewrite IH. Qed.

(** ** The handlers *)
Lemma quiet_end g t r : quiet_asks g [OEnd t r] /\ quiet_names g [OEnd t r] /\ quiet_lists g [OEnd t r].
Proof. repeat split; intros o; [intros [<-|[]] (t' & q & H & _)|intros x [<-|[]] (t' & m & H & _)|intros x [<-|[]] (t' & m & H & _)]; discriminate H. Qed.
Lemma quiet_cons g o os : quiet_asks g [o] -> quiet_asks g os -> quiet_asks g (o :: os).
Proof. intros A B o' [<-|I]; [exact (A o (or_introl eq_refl))|exact (B _ I)]. Qed.
Lemma gives_name_unique m g n g' n' : gives_name m g n -> gives_name m g' n' -> g = g' /\ n = n'.
Proof. intros [A B] [A' B']. rewrite A in A'. rewrite B in B'. split; congruence. Qed.
Lemma gives_commands_unique m g n g' n' : gives_commands m g n -> gives_commands m g' n' -> g = g' /\ n = n'.
Proof. intros [A B] [A' B']. rewrite A in A'. rewrite B in B'. split; congruence. Qed.

Lemma name_known gs0 tr gs t m g n gs' r : known gs0 tr gs -> gives_name m g n -> on_name m gs = (gs', r) -> r = Ok true /\ known gs0 (tr ++ [OCall t (CName m); OEnd t r]) gs'.
Proof.
  intros K GN E. pose proof GN as (GI & GV). unfold on_name in E. rewrite GI, GV in E. cbn [key to_int as_name] in E.
  assert (QA : forall g', quiet_asks g' [OCall t (CName m); OEnd t r]) by (intros g' o [<-|[<-|[]]] (t' & q & H & _); discriminate H).
  assert (QL : forall g', quiet_lists g' [OCall t (CName m); OEnd t r]) by (intros g' o x [<-|[<-|[]]] (t' & q & H & _); discriminate H).
  assert (QN : forall g', g' <> g -> quiet_names g' [OCall t (CName m); OEnd t r]).
  { intros g' N o x [<-|[<-|[]]] (t' & q & H & G'); [|discriminate H]. injection H as _ <-. destruct (gives_name_unique _ _ _ _ _ GN G'). congruence. }
  destruct (dget Z.eqb g gs) as [r0|] eqn:D; injection E as <- <-; (split; [reflexivity|]).
  - intros g'. pose proof (K g') as K'. rewrite dget_dset_Z. destruct (Z.eqb_spec g' g) as [->|N].
    + rewrite D in K'. apply (known_more g _ _ _ r0); [exact K'|exact (QA g)|reflexivity| |]; intros i a L.
      * apply last_new; [exists t, m; auto|]. intros o x I. exact (proj1 (proj2 (quiet_end g t (Ok true))) o x I).
      * apply last_quiet; [exact L|apply QL].
    + destruct (dget Z.eqb g' gs) as [r1|]; [|destruct K' as [K1 K2]; split; [exact K1|]; intros o I; apply in_app_iff in I as [I|I]; [exact (K2 _ I)|exact (QA _ _ I)]].
      apply (known_more g' _ _ _ r1); [exact K'|exact (QA g')|reflexivity| |]; intros i a L; apply last_quiet; try exact L; [exact (QN g' N)|exact (QL g')].
  - apply known_quiet; [exact K|exact QA|]. intros g' M. split; [|apply QL]. apply QN. intros ->. unfold dmem in M. rewrite D in M. discriminate M.
Qed.
Lemma commands_known gs0 tr gs t m g n gs' r : known gs0 tr gs -> gives_commands m g n -> on_commands m gs = (gs', r) ->
  (r = Ok true \/ r = Err EKey /\ dget Z.eqb g gs = None) /\ known gs0 (tr ++ [OCall t (CCommands m); OEnd t r]) gs'.
Proof.
  intros K GN E. pose proof GN as (GI & GV). unfold on_commands in E. rewrite GI, GV in E. cbn [key to_int as_list] in E.
  assert (QA : forall g', quiet_asks g' [OCall t (CCommands m); OEnd t r]) by (intros g' o [<-|[<-|[]]] (t' & q & H & _); discriminate H).
  assert (QL : forall g', quiet_names g' [OCall t (CCommands m); OEnd t r]) by (intros g' o x [<-|[<-|[]]] (t' & q & H & _); discriminate H).
  assert (QN : forall g', g' <> g -> quiet_lists g' [OCall t (CCommands m); OEnd t r]).
  { intros g' N o x [<-|[<-|[]]] (t' & q & H & G'); [|discriminate H]. injection H as _ <-. destruct (gives_commands_unique _ _ _ _ _ GN G'). congruence. }
  destruct (dget Z.eqb g gs) as [r0|] eqn:D; injection E as <- <-; (split; [auto|]).
  - intros g'. pose proof (K g') as K'. rewrite dget_dset_Z. destruct (Z.eqb_spec g' g) as [->|N].
    + rewrite D in K'. apply (known_more g _ _ _ r0); [exact K'|exact (QA g)|reflexivity| |]; intros i a L.
      * apply last_quiet; [exact L|apply QL].
      * apply last_new; [exists t, m; auto|]. intros o x I. exact (proj2 (proj2 (quiet_end g t (Ok true))) o x I).
    + destruct (dget Z.eqb g' gs) as [r1|]; [|destruct K' as [K1 K2]; split; [exact K1|]; intros o I; apply in_app_iff in I as [I|I]; [exact (K2 _ I)|exact (QA _ _ I)]].
      apply (known_more g' _ _ _ r1); [exact K'|exact (QA g')|reflexivity| |]; intros i a L; apply last_quiet; try exact L; [exact (QL g')|exact (QN g' N)].
  - apply known_quiet; [exact K|exact QA|]. intros g' M. split; [apply QL|]. apply QN. intros ->. unfold dmem in M. rewrite D in M. discriminate M.
Qed.
Lemma asks_once t q g g' : compose q = Ok [89; 1; g] -> asks_name (OSend t q) g' -> g' = g.
Proof. intros E (t' & q' & H & E'). injection H as _ <-. rewrite E in E'. congruence. Qed.
Lemma info_next_ok gs0 s tr t es s' o m gs gs1 gs2 : known gs0 tr (a_groups s) -> In (OCall t (CInfo m)) tr -> advertises m gs ->
  gs = gs1 ++ gs2 -> entries es gs2 -> sends t tr = questions gs1 -> info_next t es s = (s', o) ->
  exists p, a_tasks s' = set_nth t p (a_tasks s) /\ forallb (own t) o = true /\ (forall t' c, ~ In (OCall t' c) o) /\ ends t p o /\ (forall t' x, ~ In (OEnd t' (Err x)) o) /\
    info_ok t gs p (tr ++ o) /\ known gs0 (tr ++ o) (a_groups s').
Proof.
  intros K C A G F S E. destruct F as [|e [g x] es gs2 EN F].
  - cbn in E. injection E as <- <-. exists (PEnd (Ok true)). split; [reflexivity|]. split; [cbn; now rewrite Nat.eqb_refl|].
    split; [intros t' c [H|[]]; discriminate H|]. split; [intros t' r; cbn; split; [intros [H|[]]; injection H as -> ->; auto|intros [-> [= ->]]; auto]|].
    split; [intros t' x [H|[]]; discriminate H|]. split; [split; [reflexivity|]; rewrite sends_app, S, G; cbn; now rewrite !app_nil_r|].
    apply known_quiet; [exact K| |]; intros g; [|intros _; split]; apply quiet_end.
  - destruct (entry_reads _ _ _ EN) as [RG RP]. pose proof (proj1 EN) as B. cbn [fst snd] in *. unfold info_next in E. rewrite RG, RP in E. cbv zeta in E.
    destruct (new_msg m_AssociationGrpInfo_GroupNameGet [("groupingIdentifier", VI false 1 g)]) as [q|x0] eqn:Q; [|discriminate Q].
    injection E as <- <-. pose proof (name_bytes g q B Q) as QB. exists (PName g es). split; [reflexivity|]. split; [cbn; now rewrite Nat.eqb_refl|].
    split; [intros t' c [H|[]]; discriminate H|]. split; [intros t' r; cbn; split; [intros [H|[]]; discriminate H|intros [_ H]; discriminate H]|].
    split; [intros t' y [H|[]]; discriminate H|]. split; [exists gs1, x, gs2; split; [exact G|]; split; [rewrite sends_app, S; cbn; rewrite Nat.eqb_refl, QB; reflexivity|auto]|].
    cbn [a_groups with_pc with_groups]. intros g'. pose proof (K g') as K'. rewrite dget_dset_Z. destruct (Z.eqb_spec g' g) as [->|N].
    + left. exists tr, (OSend t q), []. split; [reflexivity|]. split.
      { exists t, q, m, gs, (List.length gs1). split; [reflexivity|]. split; [exact QB|]. split; [exact C|]. split; [exact A|].
        split; [rewrite S, questions_len; reflexivity|]. rewrite G, nth_error_app2 by lia. rewrite Nat.sub_diag. reflexivity. }
      split; [intros o []|]. split; right; (split; [reflexivity|intros o y []]).
    + assert (QA : quiet_asks g' [OSend t q]) by (intros o [<-|[]] H; exact (N (asks_once _ _ _ _ QB H))).
      destruct (dget Z.eqb g' (a_groups s)) as [r1|]; [|destruct K' as [K1 K2]; split; [exact K1|]; intros o I; apply in_app_iff in I as [I|I]; [exact (K2 _ I)|exact (QA _ I)]].
      apply (known_more g' _ _ _ r1); [exact K'|exact QA|reflexivity| |]; intros i a L; apply last_quiet; try exact L; intros o y [<-|[]] (t' & m' & H & _); discriminate H.
Qed.
Lemma questions_prefix gs1 k x gs2 : questions gs1 ++ [Ok [89; 1; k]] = firstn (2 * List.length gs1 + 1) (questions (gs1 ++ (k, x) :: gs2)).
Proof. rewrite questions_app, firstn_app, questions_len, firstn_all2 by (rewrite questions_len; lia). replace (2 * Datatypes.length gs1 + 1 - 2 * Datatypes.length gs1)%nat with 1%nat by lia. reflexivity. Qed.
Lemma questions_start gs1 gs2 : questions gs1 = firstn (2 * List.length gs1) (questions (gs1 ++ gs2)).
Proof. rewrite questions_app, firstn_app, questions_len, firstn_all2 by (rewrite questions_len; lia). rewrite Nat.sub_diag. cbn. now rewrite app_nil_r. Qed.
Lemma finish_known gs0 tr gs t r : known gs0 tr gs -> known gs0 (tr ++ [OEnd t r]) gs.
Proof. intros K. apply known_quiet; [exact K| |]; intros g; [|intros _; split]; apply quiet_end. Qed.
Lemma ends_finish t r : ends t (PEnd r) [OEnd t r].
Proof. intros t' r'. cbn. split; [intros [H|[]]; injection H as -> ->; auto|intros [-> [= ->]]; auto]. Qed.
Lemma interview_bytes q : new_msg m_AssociationGrpInfo_GroupInfoGet [("refreshCache", VBool false); ("listMode", VBool true); ("groupingIdentifier", VInt 0)] = Ok q -> compose q = Ok [89; 3; 64; 0].
Proof. intros E. injection E as <-. vm_compute. reflexivity. Qed.

Lemma step_inv gs0 s tr e s' o : inv gs0 s tr -> all_complete (tr ++ o) -> astep s e = Some (s', o) -> inv gs0 s' (tr ++ o).
Proof.
  intros I AC E. destruct e as [c|t r|].
  - cbn [astep] in E. cbv zeta in E. set (t := List.length (a_tasks s)) in *.
    destruct c as [m|m|m|].
    + change (a_groups (new_task s)) with (a_groups s) in E. destruct (on_name m (a_groups s)) as [gs r] eqn:O. injection E as <- <-.
      destruct (AC t (CName m)) as (g & n & GN); [apply in_or_app; right; left; reflexivity|].
      destruct (name_known _ _ _ t _ _ _ _ _ (i_known _ _ _ I) GN O) as [-> K].
      eapply inv_call with (p := PEnd (Ok true)); [exact I|apply set_last|cbn; fold t; now rewrite Nat.eqb_refl|intros t' c [H|[]]; discriminate H|apply ends_finish| |exact K].
      split; [eauto|]. rewrite sends_app, (i_new _ _ _ I) by (fold t; lia). reflexivity.
    + change (a_groups (new_task s)) with (a_groups s) in E. destruct (on_commands m (a_groups s)) as [gs r] eqn:O. injection E as <- <-.
      destruct (AC t (CCommands m)) as (g & n & GN); [apply in_or_app; right; left; reflexivity|].
      destruct (commands_known _ _ _ t _ _ _ _ _ (i_known _ _ _ I) GN O) as [_ K].
      eapply inv_call with (p := PEnd r); [exact I|apply set_last|cbn; fold t; now rewrite Nat.eqb_refl|intros t' c [H|[]]; discriminate H|apply ends_finish| |exact K].
      split; [eauto|]. rewrite sends_app, (i_new _ _ _ I) by (fold t; lia). reflexivity.
    + destruct (getattr m "groups") as [| | | | | | | | | |es| | | | | | | | | | | | | | |] eqn:GE;
        try (destruct (AC t (CInfo m)) as (gs & es & GE' & _); [apply in_or_app; right; destruct (finish t _ _) in E; injection E as _ <-; left; reflexivity|congruence]).
      destruct (info_next t es (new_task s)) as [s1 o1] eqn:N. injection E as <- <-.
      destruct (AC t (CInfo m)) as (gs & es' & GE' & F); [apply in_or_app; right; left; reflexivity|]. rewrite GE in GE'. injection GE' as <-.
      assert (A : advertises m gs) by (exists es; auto).
      destruct (info_next_ok gs0 (new_task s) (tr ++ [OCall t (CInfo m)]) t es s1 o1 m gs [] gs) as (p & T & OW & NC & EN & _ & IO & K); auto.
      * change (a_groups (new_task s)) with (a_groups s). apply known_quiet; [exact (i_known _ _ _ I)| |]; intros g; [|intros _; split]; intros o; [|intros x|intros x]; intros [<-|[]]; [intros (? & ? & H & _)|intros (? & ? & H & _)|intros (? & ? & H & _)]; discriminate H.
      * apply in_or_app. right. left. reflexivity.
      * rewrite sends_app, (i_new _ _ _ I) by (fold t; lia). reflexivity.
      * rewrite <- app_assoc in IO, K. cbn [List.app] in IO, K.
        eapply inv_call with (p := p); [exact I|rewrite T; apply set_last|exact OW|exact NC|exact EN| |exact K]. exists gs. auto.
    + unfold interview_start in E. destruct (new_msg m_AssociationGrpInfo_GroupInfoGet _) as [q|x] eqn:Q; [|discriminate Q]. injection E as <- <-.
      pose proof (interview_bytes q Q) as QB.
      eapply inv_call with (p := PInterview); [exact I|apply set_last|cbn; fold t; now rewrite Nat.eqb_refl|intros t' c [H|[]]; discriminate H| | |].
      * intros t' r. cbn. split; [intros [H|[]]; discriminate H|intros [_ H]; discriminate H].
      * split; [auto|]. rewrite sends_app, (i_new _ _ _ I) by (fold t; lia). cbn. fold t. now rewrite Nat.eqb_refl, QB.
      * change (a_groups _) with (a_groups s). apply known_quiet; [exact (i_known _ _ _ I)| |]; intros g.
        -- intros o [<-|[<-|[]]] (t' & q' & H & B); [discriminate H|]. injection H as _ <-. congruence.
        -- intros _; split; intros o x [<-|[<-|[]]] (? & ? & H & _); discriminate H.
  - cbn [astep] in E. destruct (nth_error (a_tasks s) t) as [[k rest|rest| |r']|] eqn:T; [| | |discriminate E|discriminate E]; injection E as E.
    + destruct (i_task _ _ _ I t _ T) as (c & C & TK). destruct r as [b|x].
      * unfold commands_next in E. destruct (new_msg m_AssociationGrpInfo_GroupCommandListGet _) as [q|x] eqn:Q; [|discriminate Q]. injection E as <- <-.
        eapply inv_step with (p := PCommands rest); [exact I|exact T|discriminate|reflexivity|cbn; now rewrite Nat.eqb_refl|intros t' c' [H|[]]; discriminate H| | |].
        -- intros t' r. cbn. split; [intros [H|[]]; discriminate H|intros [_ H]; discriminate H].
        -- intros c' C' X. destruct c' as [m|m|m|]; [destruct X as [[? X] _]; discriminate X|destruct X as [[? X] _]; discriminate X| |destruct X as [[X|[? X]] _]; discriminate X].
           destruct X as (gs & A & gs1 & x & gs2 & G & S & F & B). exists gs. split; [exact A|]. exists (gs1 ++ [(k, x)]), gs2. rewrite <- app_assoc. split; [exact G|]. split; [|exact F].
           rewrite sends_app, S, questions_app. cbn. rewrite Nat.eqb_refl, (commands_bytes k q B Q). now rewrite <- app_assoc.
        -- change (a_groups _) with (a_groups s). apply known_quiet; [exact (i_known _ _ _ I)| |]; intros g.
           ++ destruct c as [m|m|m|]; [destruct TK as [[? X] _]; discriminate X|destruct TK as [[? X] _]; discriminate X| |destruct TK as [[X|[? X]] _]; discriminate X].
              destruct TK as (gs & A & gs1 & x & gs2 & G & S & F & B).
              intros o [<-|[]] (t' & q' & H & QB). injection H as _ <-. rewrite (commands_bytes k q B Q) in QB. congruence.
           ++ intros _; split; intros o x [<-|[]] (? & ? & H & _); discriminate H.
      * injection E as <- <-. eapply inv_step with (p := PEnd (Err x)); [exact I|exact T|discriminate|reflexivity|cbn; now rewrite Nat.eqb_refl|intros t' c' [H|[]]; discriminate H|apply ends_finish| |].
        -- intros c' C' X. apply task_same; [|reflexivity]. destruct c' as [m|m|m|]; [destruct X as [[? X] _]; discriminate X|destruct X as [[? X] _]; discriminate X| |destruct X as [[X|[? X]] _]; discriminate X].
           destruct X as (gs & A & gs1 & y & gs2 & G & S & F & B). exists gs. split; [exact A|]. eexists. rewrite S, G. apply questions_prefix.
        -- apply finish_known. exact (i_known _ _ _ I).
    + destruct (i_task _ _ _ I t _ T) as (c & C & TK).
      destruct c as [m|m|m|]; [destruct TK as [[? X] _]; discriminate X|destruct TK as [[? X] _]; discriminate X| |destruct TK as [[X|[? X]] _]; discriminate X].
      destruct TK as (gs & A & gs1 & gs2 & G & S & F). destruct r as [b|x].
      * destruct (info_next_ok gs0 s tr t rest s' o m gs gs1 gs2 (i_known _ _ _ I) C A G F S E) as (p & T' & OW & NC & EN & _ & IO & K).
        eapply inv_step with (p := p); [exact I|exact T|discriminate|exact T'|exact OW|exact NC|exact EN| |exact K].
        intros c' C' _. rewrite (i_once _ _ _ I _ _ _ C' C). exists gs. auto.
      * injection E as <- <-. eapply inv_step with (p := PEnd (Err x)); [exact I|exact T|discriminate|reflexivity|cbn; now rewrite Nat.eqb_refl|intros t' c' [H|[]]; discriminate H|apply ends_finish| |].
        -- intros c' C' _. rewrite (i_once _ _ _ I _ _ _ C' C). apply task_same; [|reflexivity]. exists gs. split; [exact A|]. eexists. rewrite S, G. apply questions_start.
        -- apply finish_known. exact (i_known _ _ _ I).
    + destruct (i_task _ _ _ I t _ T) as (c & C & TK).
      destruct c as [m|m|m|]; [destruct TK as [[? X] _]; discriminate X|destruct TK as [[? X] _]; discriminate X|destruct TK as (? & _ & [])|].
      destruct TK as [_ S].
      assert (Z : exists r' o', o = o' ++ [OEnd t r'] /\ (o' = [] \/ o' = [OSaved]) /\ a_groups s' = a_groups s /\ a_tasks s' = set_nth t (PEnd r') (a_tasks s)).
      { destruct r as [b|x]; [exists (Ok true), [OSaved]; cbn in E; injection E as <- <-; auto|].
        destruct x; cbn in E; injection E as <- <-; eexists _, []; (split; [reflexivity|auto]). }
      destruct Z as (r' & o' & -> & O' & G & T').
      eapply inv_step with (p := PEnd r'); [exact I|exact T|discriminate|exact T'| | | | |].
      * destruct O' as [->| ->]; cbn; now rewrite Nat.eqb_refl.
      * intros t' c' J. destruct O' as [->| ->]; cbn in J; intuition discriminate.
      * intros t' r''. rewrite in_app_iff, (ends_finish t r' t' r''). destruct O' as [->| ->]; cbn; intuition discriminate.
      * intros c' C' _. rewrite (i_once _ _ _ I _ _ _ C' C). split; [eauto|]. rewrite sends_app, S. destruct O' as [->| ->]; reflexivity.
      * rewrite G. apply known_quiet; [exact (i_known _ _ _ I)| |]; intros g.
        -- intros o J (t' & q' & H & QB). subst o. destruct O' as [->| ->]; cbn in J; intuition discriminate.
        -- intros _; split; intros o x J (? & ? & H & _); subst o; destruct O' as [->| ->]; cbn in J; intuition discriminate.
  - injection E as <- <-. destruct I as [K T L O N EN]. constructor; auto.
    + apply known_quiet; [exact K| |]; intros g.
      * intros o [<-|[]] (? & ? & H & _). discriminate H.
      * intros _; split; intros o x [<-|[]] (? & ? & H & _); discriminate H.
    + intros t p H. destruct (T t p H) as (c & C & X). exists c. split; [apply in_or_app; auto|]. now apply task_same.
    + intros t c J. apply in_app_iff in J as [J|[J|[]]]; [exact (L _ _ J)|discriminate J].
    + intros t c c' J J'. apply in_app_iff in J as [J|[J|[]]]; [|discriminate J]. apply in_app_iff in J' as [J'|[J'|[]]]; [|discriminate J']. exact (O _ _ _ J J').
    + intros t H. rewrite sends_app. change (a_tasks _) with (a_tasks s) in H. now rewrite (N t H).
    + intros t r. rewrite in_app_iff. cbn. change (a_tasks _) with (a_tasks s). rewrite (EN t r). intuition discriminate.
Qed.
Lemma known_start gs0 : known gs0 [] gs0.
Proof.
  intros g. destruct (dget Z.eqb g gs0) as [r|]; [|split; [reflexivity|intros o []]]. right. exists r. split; [reflexivity|]. split; [intros o []|]. split; [reflexivity|].
  split; right; (split; [reflexivity|intros o x []]).
Qed.
Lemma exec_inv gs v i others base n ep d es s tr : aexec (astate0 gs v i others base n ep d) es s tr -> all_complete tr -> inv gs s tr.
Proof.
  intros X. induction X as [|es s tr e s' o X IH ST]; intros AC.
  - constructor; cbn; try (intros; contradiction).
    + apply known_start.
    + intros [|t] p H; discriminate H.
    + reflexivity.
    + intros [|t] r; split; try contradiction; discriminate.
  - apply (step_inv gs s tr e s' o); [|exact AC|exact ST]. apply IH. intros t c J. apply (AC t c). apply in_or_app. auto.
Qed.

(** ** C82 *)
Lemma complete_app a b : all_complete (a ++ b) -> all_complete a.
Proof. intros H t c J. apply (H t c). apply in_or_app. auto. Qed.
Lemma groups_known gs v i others base n ep d es s tr : aexec (astate0 gs v i others base n ep d) es s tr -> all_complete tr -> forall g,
  match dget Z.eqb g (a_groups s) with
  | Some r => known_as g (dget Z.eqb g gs) tr r
  | None => dget Z.eqb g gs = None /\ forall o, In o tr -> ~ asks_name o g
  end.
Proof. intros X AC. exact (i_known _ _ _ (exec_inv _ _ _ _ _ _ _ _ _ _ _ X AC)). Qed.
Lemma step_calls s e s' o t c : astep s e = Some (s', o) -> In (OCall t c) o -> e = ECall c /\ exists o', o = OCall t c :: o' /\ forall t' c', ~ In (OCall t' c') o'.
Proof.
  intros E J. destruct e as [c0|t0 r|].
  - cbn [astep] in E. cbv zeta in E. set (t0 := List.length (a_tasks s)) in *.
    match type of E with (let (_, _) := ?x in _) = _ => destruct x as [s1 o1] eqn:N end. injection E as <- <-.
    assert (Q : forall t' c', ~ In (OCall t' c') o1).
    { intros t' c' I. destruct c0 as [m|m|m|].
      - destruct (on_name m _) in N. injection N as <- <-. destruct I as [I|[]]; discriminate I.
      - destruct (on_commands m _) in N. injection N as <- <-. destruct I as [I|[]]; discriminate I.
      - destruct (getattr m "groups"); try (injection N as <- <-; destruct I as [I|[]]; discriminate I). unfold info_next in N.
        destruct l as [|e l]; [injection N as <- <-; destruct I as [I|[]]; discriminate I|].
        destruct (entry_int e "groupingIdentifier"); [|injection N as <- <-; destruct I as [I|[]]; discriminate I].
        destruct (entry_int e "profile"); [|injection N as <- <-; destruct I as [I|[]]; discriminate I].
        cbv zeta in N. destruct (new_msg _ _) in N; injection N as <- <-; destruct I as [I|[]]; discriminate I.
      - unfold interview_start in N. destruct (new_msg _ _) in N; injection N as <- <-; destruct I as [I|[]]; discriminate I. }
    destruct J as [J|J]; [|destruct (Q _ _ J)]. injection J as <- <-. split; [reflexivity|]. exists o1. auto.
  - exfalso. cbn [astep] in E. destruct (nth_error (a_tasks s) t0) as [[k rest|rest| |r']|]; try discriminate E; injection E as E.
    + destruct r; [unfold commands_next in E; destruct (new_msg _ _) in E|]; injection E as <- <-; destruct J as [J|[]]; discriminate J.
    + destruct r; [|injection E as <- <-; destruct J as [J|[]]; discriminate J]. unfold info_next in E.
      destruct rest as [|e l]; [injection E as <- <-; destruct J as [J|[]]; discriminate J|].
      destruct (entry_int e "groupingIdentifier"); [|injection E as <- <-; destruct J as [J|[]]; discriminate J].
      destruct (entry_int e "profile"); [|injection E as <- <-; destruct J as [J|[]]; discriminate J].
      cbv zeta in E. destruct (new_msg _ _) in E; injection E as <- <-; destruct J as [J|[]]; discriminate J.
    + destruct r as [b|x]; [|destruct x]; cbn in E; injection E as <- <-; cbn in J; intuition discriminate.
  - injection E as <- <-. destruct J as [J|[]]; discriminate J.
Qed.
Lemma call_cut s0 es s tr a t c b : aexec s0 es s tr -> tr = a ++ OCall t c :: b ->
  exists es1 s1 s2 o b', aexec s0 es1 s1 a /\ astep s1 (ECall c) = Some (s2, OCall t c :: o) /\ b = o ++ b'.
Proof.
  intros X. revert b. induction X as [|es s tr e s' o X IH ST]; intros b E; [destruct a; discriminate E|].
  apply app_eq_app in E as (l & [[E1 E2]|[E1 E2]]).
  - destruct l as [|x l].
    + cbn in E2. rewrite app_nil_r in E1. subst tr o. destruct (step_calls _ _ _ _ t c ST (or_introl eq_refl)) as [-> _]. exists es, s, s', b, []. split; [exact X|]. split; [exact ST|]. now rewrite app_nil_r.
    + injection E2 as <- ->. destruct (IH l E1) as (es1 & s1 & s2 & o1 & b1 & X1 & S1 & ->). exists es1, s1, s2, o1, (b1 ++ o). split; [exact X1|]. split; [exact S1|]. now rewrite app_assoc.
  - destruct (step_calls _ _ _ _ t c ST) as [-> (o' & O & N)]; [rewrite E2; apply in_or_app; right; left; reflexivity|].
    destruct l as [|x l]; [|rewrite O in E2; injection E2 as _ E2; destruct (N t c); rewrite E2; apply in_or_app; right; left; reflexivity].
    cbn in E2. rewrite app_nil_r in E1. subst a o. exists es, s, s', b, []. split; [exact X|]. split; [exact ST|]. now rewrite app_nil_r.
Qed.
Lemma name_result gs v i others base n ep d es s a t m b : aexec (astate0 gs v i others base n ep d) es s (a ++ OCall t (CName m) :: b) -> all_complete (a ++ OCall t (CName m) :: b) ->
  exists b', b = OEnd t (Ok true) :: b'.
Proof.
  intros X AC. destruct (call_cut _ _ _ _ _ _ _ _ X eq_refl) as (es1 & s1 & s2 & o & b' & X1 & ST & ->).
  pose proof (exec_inv _ _ _ _ _ _ _ _ _ _ _ X1 (complete_app _ _ AC)) as I. destruct (AC t (CName m)) as (g & n' & GN); [apply in_or_app; right; left; reflexivity|].
  cbn [astep] in ST. cbv zeta in ST. change (a_groups (new_task s1)) with (a_groups s1) in ST. destruct (on_name m (a_groups s1)) as [gs' r] eqn:O. injection ST as _ <- <-.
  destruct (name_known _ _ _ (List.length (a_tasks s1)) _ _ _ _ _ (i_known _ _ _ I) GN O) as [-> _]. exists b'. reflexivity.
Qed.
Lemma commands_result gs v i others base n ep d es s a t m b g l : aexec (astate0 gs v i others base n ep d) es s (a ++ OCall t (CCommands m) :: b) -> all_complete (a ++ OCall t (CCommands m) :: b) ->
  gives_commands m g l -> exists r b', b = OEnd t r :: b' /\
  ((r = Ok true /\ (dget Z.eqb g gs <> None \/ exists o, In o a /\ asks_name o g)) \/ (r = Err EKey /\ dget Z.eqb g gs = None /\ forall o, In o a -> ~ asks_name o g)).
Proof.
  intros X AC GC. destruct (call_cut _ _ _ _ _ _ _ _ X eq_refl) as (es1 & s1 & s2 & o & b' & X1 & ST & ->).
  pose proof (exec_inv _ _ _ _ _ _ _ _ _ _ _ X1 (complete_app _ _ AC)) as I.
  cbn [astep] in ST. cbv zeta in ST. change (a_groups (new_task s1)) with (a_groups s1) in ST. destruct (on_commands m (a_groups s1)) as [gs' r] eqn:O. injection ST as _ <- <-.
  exists r, b'. split; [reflexivity|]. pose proof (i_known _ _ _ I g) as K. destruct GC as [GI GV]. unfold on_commands in O. rewrite GI, GV in O. cbn [key to_int as_list] in O.
  destruct (dget Z.eqb g (a_groups s1)) as [r0|]; injection O as <- <-.
  - left. split; [reflexivity|]. destruct K as [(a1 & o & b1 & -> & (t' & q & m' & gs1 & j & -> & Q & _) & _)|(r1 & -> & _)]; [|left; discriminate].
    right. exists (OSend t' q). split; [apply in_or_app; right; left; reflexivity|]. exists t', q. auto.
  - right. destruct K as [K1 K2]. auto.
Qed.

(** ** C83 *)
Lemma info_errors gs0 s tr e s' o t x m : inv gs0 s tr -> all_complete (tr ++ o) -> astep s e = Some (s', o) -> In (OEnd t (Err x)) o -> In (OCall t (CInfo m)) (tr ++ o) -> e = ESent t (Err x).
Proof.
  intros I AC E J C. destruct e as [c|t' r|].
  - exfalso. assert (C' : In (OCall t (CInfo m)) o \/ In (OCall t (CInfo m)) tr) by (apply in_app_iff in C; tauto). clear C.
    assert (J' : t = List.length (a_tasks s)).
    { pose proof (step_inv _ _ _ _ _ _ I AC E) as I'. assert (JJ : In (OEnd t (Err x)) (tr ++ o)) by (apply in_or_app; auto). apply (i_end _ _ _ I') in JJ.
      cbn [astep] in E. cbv zeta in E. set (t0 := List.length (a_tasks s)) in *.
      match type of E with (let (_, _) := ?x in _) = _ => destruct x as [s1 o1] eqn:N end. injection E as <- <-. destruct J as [J|J]; [discriminate J|].
      assert (W : forallb (own t0) o1 = true).
      { destruct c as [m0|m0|m0|].
        - destruct (on_name m0 _) in N. injection N as <- <-. cbn. now rewrite Nat.eqb_refl.
        - destruct (on_commands m0 _) in N. injection N as <- <-. cbn. now rewrite Nat.eqb_refl.
        - destruct (getattr m0 "groups"); try (injection N as <- <-; cbn; now rewrite Nat.eqb_refl). unfold info_next in N.
          destruct l as [|e l]; [injection N as <- <-; cbn; now rewrite Nat.eqb_refl|].
          destruct (entry_int e "groupingIdentifier"); [|injection N as <- <-; cbn; now rewrite Nat.eqb_refl].
          destruct (entry_int e "profile"); [|injection N as <- <-; cbn; now rewrite Nat.eqb_refl].
          cbv zeta in N. destruct (new_msg _ _) in N; injection N as <- <-; cbn; now rewrite Nat.eqb_refl.
        - unfold interview_start in N. destruct (new_msg _ _) in N; injection N as <- <-; cbn; now rewrite Nat.eqb_refl. }
      rewrite forallb_forall in W. specialize (W _ J). cbn in W. now apply Nat.eqb_eq in W. }
    subst t. destruct C' as [C|C]; [|pose proof (i_low _ _ _ I _ _ C); lia].
    destruct (step_calls _ _ _ _ _ _ E C) as [EC (o' & -> & _)]. injection EC as ->.
    destruct (AC (List.length (a_tasks s)) (CInfo m)) as (gs & es & GE & F); [apply in_or_app; right; left; reflexivity|].
    cbn [astep] in E. cbv zeta in E. rewrite GE in E. destruct (info_next _ _ _) as [s1 o1] eqn:N in E. injection E as <- <-. destruct J as [J|J]; [discriminate J|].
    destruct es as [|e es]; [injection N as <- <-; destruct J as [J|[]]; discriminate J|]. inversion F as [|? [g p] ? gs2 EN F2]; subst. destruct (entry_reads _ _ _ EN) as [RG RP].
    unfold info_next in N. rewrite RG, RP in N. cbn in N. injection N as <- <-. destruct J as [J|[]]; discriminate J.
  - cbn [astep] in E. destruct (nth_error (a_tasks s) t') as [[k rest|rest| |r']|] eqn:T; try discriminate E; injection E as E.
    + destruct r as [b|y]; [unfold commands_next in E; cbn in E; injection E as <- <-; destruct J as [J|[]]; discriminate J|]. injection E as <- <-. destruct J as [J|[]]. injection J as -> ->. reflexivity.
    + destruct r as [b|y]; [|injection E as <- <-; destruct J as [J|[]]; injection J as -> ->; reflexivity]. exfalso.
      destruct (i_task _ _ _ I t' _ T) as (c & C' & TK).
      destruct c as [m'|m'|m'|]; [destruct TK as [[? X] _]; discriminate X|destruct TK as [[? X] _]; discriminate X| |destruct TK as [[X|[? X]] _]; discriminate X].
      destruct TK as (gs & A & gs1 & gs2 & G & S & F).
      destruct (info_next_ok gs0 s tr t' rest s' o m' gs gs1 gs2 (i_known _ _ _ I) C' A G F S E) as (p & _ & _ & _ & _ & NX & _). exact (NX _ _ J).
    + exfalso. destruct (i_task _ _ _ I t' _ T) as (c & C' & TK).
      assert (t' = t) by (destruct r as [b|y]; [|destruct y]; cbn in E; injection E as <- <-; cbn in J; intuition congruence). subst t'.
      assert (c = CInfo m).
      { apply in_app_iff in C as [C|C]; [exact (i_once _ _ _ I _ _ _ C' C)|]. destruct r as [b|y]; [|destruct y]; cbn in E; injection E as <- <-; cbn in C; intuition discriminate. }
      subst c. destruct TK as (? & _ & []).
  - injection E as <- <-. destruct J as [J|[]]; discriminate J.
Qed.
Lemma errors_sent gs v i others base n ep d es s tr t x m : aexec (astate0 gs v i others base n ep d) es s tr -> all_complete tr ->
  In (OCall t (CInfo m)) tr -> In (OEnd t (Err x)) tr -> In (ESent t (Err x)) es.
Proof.
  intros X. induction X as [|es s tr e s' o X IH ST]; intros AC C J; [destruct J|].
  pose proof (exec_inv _ _ _ _ _ _ _ _ _ _ _ X (complete_app _ _ AC)) as I. apply in_app_iff in J as [J|J].
  - apply in_or_app. left. apply IH; [exact (complete_app _ _ AC)| |exact J].
    apply in_app_iff in C as [C|C]; [exact C|]. exfalso. apply (i_end _ _ _ I) in J. assert (L : (t < List.length (a_tasks s))%nat) by (apply nth_error_Some; congruence).
    destruct (step_calls _ _ _ _ _ _ ST C) as [-> (o' & -> & _)]. cbn [astep] in ST. cbv zeta in ST.
    match type of ST with (let (_, _) := ?x in _) = _ => destruct x as [s1 o1] end. injection ST as _ E _. lia.
  - apply in_or_app. right. left. exact (info_errors _ _ _ _ _ _ _ _ _ I AC ST J C).
Qed.
Lemma info_story gs v i others base n ep d es s tr t m adv : aexec (astate0 gs v i others base n ep d) es s tr -> all_complete tr ->
  In (OCall t (CInfo m)) tr -> advertises m adv ->
  (exists n, sends t tr = firstn n (questions adv)) /\
  (forall b, In (OEnd t (Ok b)) tr -> b = true /\ sends t tr = questions adv /\ forall g p, In (g, p) adv -> exists r, dget Z.eqb g (a_groups s) = Some r) /\
  (forall x, In (OEnd t (Err x)) tr -> In (ESent t (Err x)) es) /\
  ((forall r, ~ In (OEnd t r) tr) -> forall r, exists s' o, astep s (ESent t r) = Some (s', o)).
Proof.
  intros X AC C A. pose proof (exec_inv _ _ _ _ _ _ _ _ _ _ _ X AC) as I.
  assert (T : exists p, nth_error (a_tasks s) t = Some p). { destruct (nth_error (a_tasks s) t) eqn:N; [eauto|]. apply nth_error_None in N. pose proof (i_low _ _ _ I _ _ C). lia. }
  destruct T as (p & T). destruct (i_task _ _ _ I t p T) as (c & C' & TK). rewrite (i_once _ _ _ I _ _ _ C' C) in TK. destruct TK as (adv' & A' & TK). rewrite (advertises_unique _ _ _ A' A) in TK. clear adv' A' c C'.
  split; [|split; [|split]].
  - destruct p as [k rest|rest| |[b|x]]; cbn in TK.
    + destruct TK as (g1 & x & g2 & -> & -> & _). eexists. apply questions_prefix.
    + destruct TK as (g1 & g2 & -> & -> & _). eexists. apply questions_start.
    + destruct TK.
    + destruct TK as [_ ->]. exists (List.length (questions adv)). now rewrite firstn_all.
    + exact TK.
  - intros b J. apply (i_end _ _ _ I) in J. rewrite T in J. injection J as ->. cbn in TK. destruct TK as [-> S]. split; [reflexivity|]. split; [exact S|].
    intros g q G. pose proof (i_known _ _ _ I g) as K. destruct (dget Z.eqb g (a_groups s)) as [r|]; [eauto|]. exfalso. destruct K as [_ K].
    assert (Q : In (Ok [89; 1; g]) (sends t tr)). { rewrite S. unfold questions. apply in_flat_map. exists (g, q). split; [exact G|]. left. reflexivity. }
    unfold sends in Q. apply in_flat_map in Q as (o & O & Q). destruct o; try destruct Q. destruct (Nat.eqb t0 t); [|destruct Q]. destruct Q as [Q|[]]. apply (K _ O). exists t0, q0. auto.
  - intros x J. exact (errors_sent _ _ _ _ _ _ _ _ _ _ _ _ _ _ X AC C J).
  - intros N r. cbn [astep]. rewrite T. destruct p as [k rest|rest| |r'].
    + destruct (match r with Ok _ => _ | Err _ => _ end) eqn:E; eauto.
    + destruct (match r with Ok _ => _ | Err _ => _ end) eqn:E; eauto.
    + destruct TK.
    + destruct (N r'). apply (i_end _ _ _ I). exact T.
Qed.

(** ** C84: what is on the disk *)
Definition place (s : astate) := (a_base s, a_node s, a_ep s, a_others s).
Lemma step_disk s e s' o : astep s e = Some (s', o) -> place s' = place s /\
  (~ In OSaved o /\ a_disk s' = a_disk s \/ In OSaved o /\ a_groups s' = a_groups s /\ a_disk s' = node_updated (a_base s) (a_node s) (a_ep s) (node_state s') (a_disk s)).
Proof.
  assert (Q : forall t r s, place (fst (finish t r s)) = place s /\ a_disk (fst (finish t r s)) = a_disk s /\ ~ In OSaved (snd (finish t r s))).
  { intros t r s0. cbn. repeat split. intros [H|[]]. discriminate H. }
  assert (N : forall t es s, place (fst (info_next t es s)) = place s /\ a_disk (fst (info_next t es s)) = a_disk s /\ ~ In OSaved (snd (info_next t es s))).
  { intros t es s0. unfold info_next. destruct es as [|e0 es]; [apply Q|]. destruct (entry_int e0 "groupingIdentifier"); [|apply Q]. destruct (entry_int e0 "profile"); [|apply Q].
    cbn. repeat split. intros [H|[]]. discriminate H. }
  intros E. destruct e as [c|t r|].
  - cbn [astep] in E. cbv zeta in E.
    match type of E with (let (_, _) := ?x in _) = _ => destruct x as [s1 o1] eqn:X end. injection E as <- <-.
    assert (K : place s1 = place s /\ a_disk s1 = a_disk s /\ ~ In OSaved o1).
    { destruct c as [m|m|m|].
      - destruct (on_name m _) as [gs r] in X. pose proof (Q (List.length (a_tasks s)) r (with_groups gs (new_task s))) as K. rewrite X in K. exact K.
      - destruct (on_commands m _) as [gs r] in X. pose proof (Q (List.length (a_tasks s)) r (with_groups gs (new_task s))) as K. rewrite X in K. exact K.
      - destruct (getattr m "groups"); try (pose proof (Q (List.length (a_tasks s)) (Err EUnmodelled) (new_task s)) as K; rewrite X in K; exact K).
        + pose proof (Q (List.length (a_tasks s)) (Err EType) (new_task s)) as K; rewrite X in K; exact K.
        + pose proof (N (List.length (a_tasks s)) l (new_task s)) as K. rewrite X in K. exact K.
      - cbn in X. injection X as <- <-. repeat split. intros [H|[]]. discriminate H. }
    destruct K as (K1 & K2 & K3). split; [exact K1|]. left. split; [|exact K2]. intros [H|H]; [discriminate H|exact (K3 H)].
  - cbn [astep] in E. destruct (nth_error (a_tasks s) t) as [[k rest|rest| |r']|]; try discriminate E; injection E as E.
    + destruct r as [b|x]; [cbn in E; injection E as <- <-; split; [reflexivity|]; left; split; [intros [H|[]]; discriminate H|reflexivity]|].
      injection E as <- <-. split; [reflexivity|]; left; split; [intros [H|[]]; discriminate H|reflexivity].
    + destruct r as [b|x]; [|injection E as <- <-; split; [reflexivity|]; left; split; [intros [H|[]]; discriminate H|reflexivity]].
      pose proof (N t rest s) as K. rewrite E in K. destruct K as (K1 & K2 & K3). split; [exact K1|]. left. auto.
    + destruct r as [b|x]; [cbn in E; injection E as <- <-; split; [reflexivity|]; right; split; [left; reflexivity|]; split; reflexivity|].
      destruct x; cbn in E; injection E as <- <-; (split; [reflexivity|]; left; split; [intros [H|[]]; discriminate H|reflexivity]).
  - injection E as <- <-. split; [reflexivity|]. right. split; [left; reflexivity|]. split; reflexivity.
Qed.
Lemma exec_place s0 es s tr : aexec s0 es s tr -> place s = place s0 /\ (unsaved tr -> a_disk s = a_disk s0).
Proof.
  intros X. induction X as [|es s tr e s' o X [IH1 IH2] ST]; [auto|]. destruct (step_disk _ _ _ _ ST) as [P D]. split; [congruence|].
  intros U. assert (U1 : unsaved tr) by (intros H; apply U, in_or_app; auto). destruct D as [[_ D]|[D _]]; [rewrite D; exact (IH2 U1)|]. destruct U. apply in_or_app. auto.
Qed.
Lemma dset_keys {A} k (v : A) d : NoDup (map fst d) -> NoDup (map fst (dset Z.eqb k v d)).
Proof.
  induction d as [|[j w] d IH]; cbn; intros N; [repeat constructor; intros []|]. destruct (Z.eqb_spec k j) as [->|M]; [exact N|].
  inversion N as [|? ? A1 A2]; subst. cbn. constructor; [|exact (IH A2)]. intros J. apply A1. clear - J M. induction d as [|[i w'] d IH]; cbn in *; [destruct J as [J|[]]; congruence|].
  destruct (k =? i); cbn in J; [exact J|]. destruct J as [J|J]; auto.
Qed.
Lemma step_keys s e s' o : astep s e = Some (s', o) -> NoDup (map fst (a_groups s)) -> NoDup (map fst (a_groups s')).
Proof.
  assert (N : forall t es s, NoDup (map fst (a_groups s)) -> NoDup (map fst (a_groups (fst (info_next t es s))))).
  { intros t es s0 K. unfold info_next. destruct es as [|e0 es]; [exact K|]. destruct (entry_int e0 "groupingIdentifier"); [|exact K]. destruct (entry_int e0 "profile"); [|exact K].
    cbn. apply dset_keys. exact K. }
  intros E K. destruct e as [c|t r|].
  - cbn [astep] in E. cbv zeta in E.
    match type of E with (let (_, _) := ?x in _) = _ => destruct x as [s1 o1] eqn:X end. injection E as <- <-. destruct c as [m|m|m|].
    + change (a_groups (new_task s)) with (a_groups s) in X. destruct (on_name m (a_groups s)) as [gs r] eqn:O. injection X as <- <-. cbn. unfold on_name in O.
      destruct (key _); [|injection O as <- <-; exact K]. destruct (dget _ _ _); [|injection O as <- <-; exact K]. destruct (as_name _); injection O as <- <-; [apply dset_keys|]; exact K.
    + change (a_groups (new_task s)) with (a_groups s) in X. destruct (on_commands m (a_groups s)) as [gs r] eqn:O. injection X as <- <-. cbn. unfold on_commands in O.
      destruct (as_list _); [|injection O as <- <-; exact K]. destruct (key _); [|injection O as <- <-; exact K]. destruct (dget _ _ _); injection O as <- <-; [apply dset_keys|]; exact K.
    + destruct (getattr m "groups"); try (injection X as <- <-; exact K). pose proof (N (List.length (a_tasks s)) l (new_task s) K) as R. rewrite X in R. exact R.
    + cbn in X. injection X as <- <-. exact K.
  - cbn [astep] in E. destruct (nth_error (a_tasks s) t) as [[k rest|rest| |r']|]; try discriminate E; injection E as E.
    + destruct r as [b|x]; cbn in E; injection E as <- <-; exact K.
    + destruct r as [b|x]; [|injection E as <- <-; exact K]. pose proof (N t rest s K) as R. rewrite E in R. exact R.
    + destruct r as [b|x]; [|destruct x]; cbn in E; injection E as <- <-; exact K.
  - injection E as <- <-. exact K.
Qed.
Lemma exec_keys s0 es s tr : aexec s0 es s tr -> NoDup (map fst (a_groups s0)) -> NoDup (map fst (a_groups s)).
Proof. intros X K. induction X as [|es s tr e s' o X IH ST]; [exact K|]. exact (step_keys _ _ _ _ ST IH). Qed.
Lemma plain_val : forall v, plain (py_of_val v) = true.
Proof. fix IH 1. intros v. destruct v; try reflexivity. cbn. induction l as [|x l IHl]; [reflexivity|]. cbn. rewrite (IH x). exact IHl. Qed.
Lemma plain_vals l : forallb plain (map py_of_val l) = true.
Proof. induction l as [|x l IH]; [reflexivity|]. cbn. rewrite plain_val. exact IH. Qed.
Lemma group_typed g : typed (AObj [("name", AText); ("profile", AInt); ("commands", AList)]) (group_attrs g).
Proof.
  destruct g as [p n c]. apply ty_obj.
  - destruct n, c; repeat (constructor; [cbn; intuition discriminate|]); constructor.
  - intros n0 v0 I. destruct n, c; cbn in I; repeat (destruct I as [I|I]; [injection I as <- <-; eexists; cbn; eauto|]); destruct I.
  - intros n0 v0 t0 I J. destruct n, c; cbn in I; repeat (destruct I as [I|I]; [injection I as <- <-; repeat (destruct J as [J|J]; [try discriminate J; injection J as <-; constructor|]); destruct J|]); destruct I.
Qed.
Lemma node_state_ok s : NoDup (map fst (a_groups s)) -> node_ok (a_others s) -> ~ In 89 (map fst (a_others s)) -> node_ok (node_state s).
Proof.
  intros K [O1 O2] N. split; [cbn; constructor; assumption|]. intros id c [E|E]; [|exact (O2 _ _ E)]. injection E as <- <-.
  apply ty_obj; cbn.
  - repeat (constructor; [cbn; intuition discriminate|]). constructor.
  - intros n v [E|[]]. injection E as <- <-. eexists. left. reflexivity.
  - intros n v t [E|[]] [J|[]]. injection E as <- <-. injection J as <-.
    apply ty_dict; [rewrite map_map; exact K|]. intros k v I. apply in_map_iff in I as ([k' g] & E & _). injection E as <- <-. apply group_typed.
Qed.
Lemma dget_map {A B} (f : A -> B) k d : dget Z.eqb k (map (fun e => (fst e, f (snd e))) d) = match dget Z.eqb k d with Some x => Some (f x) | None => None end.
Proof. induction d as [|[j x] d IH]; cbn; [reflexivity|]. destruct (k =? j); [reflexivity|exact IH]. Qed.
Lemma groups_back s0 es1 s1 tr1 e s2 o es2 s3 tr2 cut fresh c0 :
  aexec s0 es1 s1 tr1 -> NoDup (map fst (a_groups s0)) -> node_ok (a_others s0) -> ~ In 89 (map fst (a_others s0)) ->
  astep s1 e = Some (s2, o) -> In OSaved o -> aexec s2 es2 s3 tr2 -> unsaved tr2 -> NoDup (map fst fresh) -> dget Z.eqb 89 fresh = Some c0 ->
  exists after c', node_added cut (a_base s0) (a_node s0) (a_ep s0) (a_disk s3) fresh = (after, None) /\ dget Z.eqb 89 after = Some c' /\
  forall g r, dget Z.eqb g (a_groups s1) = Some r ->
    look_class [Attr "groupings"; Key g; Attr "profile"] c' = Some (IsInt (gr_profile r)) /\
    (forall n, gr_name r = Some n -> look_class [Attr "groupings"; Key g; Attr "name"] c' = Some (IsText n)) /\
    (forall l, gr_commands r = Some (map (fun x => VList [VInt (fst x); VInt (snd x)]) l) ->
       look_class [Attr "groupings"; Key g; Attr "commands"] c' = Some (IsList (map (fun x => as_text (PList [PInt (fst x); PInt (snd x)])) l))).
Proof.
  intros X1 K O N ST SV X2 U F C. destruct (exec_place _ _ _ _ X1) as [P1 _]. destruct (exec_place _ _ _ _ X2) as [P2 D]. specialize (D U).
  destruct (step_disk _ _ _ _ ST) as [P3 [[NS _]|(_ & G & D')]]; [destruct (NS SV)|].
  unfold place in *. pose proof (exec_keys _ _ _ _ X1 K) as K1. pose proof (step_keys _ _ _ _ ST K1) as K2.
  assert (E0 : a_others s2 = a_others s0) by congruence. assert (OK : node_ok (node_state s2)) by (apply node_state_ok; [exact K2|rewrite E0; exact O|rewrite E0; exact N]).
  assert (EB : a_base s1 = a_base s0) by congruence. assert (EN : a_node s1 = a_node s0) by congruence. assert (EE : a_ep s1 = a_ep s0) by congruence.
  rewrite D, D', EB, EN, EE.
  destruct (StorageProofs.agi_back cut (a_base s0) (a_node s0) (a_ep s0) (node_state s2) (a_disk s1) fresh _ c0 OK F eq_refl C) as (after & c' & A & B & H1 & H2).
  exists after, c'. split; [exact A|]. split; [exact B|]. intros g r R. rewrite <- G in R.
  assert (L : forall n, look_class [Attr "groupings"; Key g; Attr n] (StorageM.mkCls (a_version s2) (a_interviewed s2) (class_attrs_of (a_groups s2))) = look [Attr n] (group_attrs r)).
  { intros n. unfold look_class, class_attrs_of. cbn -[dget map]. cbn [dget String.eqb Ascii.eqb Bool.eqb]. rewrite dget_map, R. reflexivity. }
  repeat split.
  - apply H1; [rewrite L; reflexivity|discriminate].
  - intros n E. apply H1; [|discriminate]. rewrite L. destruct r as [p nm cm]. cbn in E. subst. reflexivity.
  - intros l E. replace (map (fun x => as_text (PList [PInt (fst x); PInt (snd x)])) l) with (map as_text (map py_of_val (map (fun x : Z * Z => VList [VInt (fst x); VInt (snd x)]) l))) by (rewrite !map_map; reflexivity).
    apply H2; [|apply plain_vals]. rewrite L. destruct r as [p [nm|] cm]; cbn in E; subst; reflexivity.
Qed.

(** ** Running *)
Lemma aexec_step s0 e s1 o es s tr : astep s0 e = Some (s1, o) -> aexec s1 es s tr -> aexec s0 (e :: es) s (o ++ tr).
Proof.
  intros ST X. induction X as [|es s tr e' s' o' X IH ST'].
  - rewrite app_nil_r. apply (aexec_snoc s0 [] s0 [] e s1 o); [constructor|exact ST].
  - rewrite app_assoc. apply (aexec_snoc s0 (e :: es) s (o ++ tr) e' s' o' IH ST').
Qed.
Lemma arun_exec es : forall s0 s tr, arun s0 es = Some (s, tr) -> aexec s0 es s tr.
Proof.
  induction es as [|e es IH]; intros s0 s tr E; cbn in E; [injection E as <- <-; constructor|].
  destruct (astep s0 e) as [[s1 o]|] eqn:ST; [|discriminate E]. destruct (arun s1 es) as [[s2 o']|] eqn:R; [|discriminate E]. injection E as <- <-.
  exact (aexec_step _ _ _ _ _ _ _ ST (IH _ _ _ R)).
Qed.
