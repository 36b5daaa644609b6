(** Descriptions of decoded messages exist (C110). *)
From Coq Require Import String Ascii ZArith List Bool Lia ZifyBool ZifyNat.
From Verif Require Import Py BitStream Schema Registry Codec DebugTab DebugM SpecBits SpecDebug.
From Verif Require ValueProofs SpecClass ClassProofs DecodeLemmas DecodeProofs.
Import ListNotations.
Open Scope list_scope.
Open Scope string_scope.
Open Scope list_scope.
Open Scope Z_scope.

(** ** Values whose description exists: keys have an even number of bytes *)
Definition fits (e : option enum) (v : val) : bool := match e with Some _ => match v with VI _ _ _ | VU _ _ | VB _ _ => true | _ => false end | None => true end.
Definition isnum (v : val) : bool := match v with VBool _ | VInt _ | VI _ _ _ | VU _ _ | VB _ _ | VF _ | VDelay _ => true | _ => false end.
Definition shape (c : cls) (n : string) (x : val) : bool :=
  fits (enum_of c n) x && match find_attr n (class_attrs c) with Some a => negb (numeric (a_ty a)) || isnum x | None => true end.
(** attributes of the same name have types of the same kind *)
Definition consistent (s : schema) : bool :=
  forallb (fun a => negb (numeric (a_ty a)) || match find_attr (a_name a) (s_attrs s) with Some b => numeric (a_ty b) | None => false end) (s_attrs s).
Fixpoint good (v : val) : bool :=
  match v with
  | VDsk bs => Nat.even (length bs)
  | VList l | VTuple l => forallb good l
  | VDict l | VHdr l | VMeta l | VMaint l => forallb (fun p => match p with (_, x) => good x end) l
  | VObj c d => forallb (fun p => match p with (_, x) => good x end) d && forallb (fun p => match p with (n, x) => shape c n x end) d && match c with CMsg s => consistent s | _ => true end
  | _ => true
  end.
Definition goods {K} (l : list (K * val)) : bool := forallb (fun p => match p with (_, x) => good x end) l.

Lemma goods_dset {K} (eqb : K -> K -> bool) k v (l : list (K * val)) : goods l = true -> good v = true -> goods (dset eqb k v l) = true.
Proof.
  intros G V. induction l as [|[k' x] l IH]; [cbn; now rewrite V|]. cbn in G |- *. apply andb_true_iff in G. destruct G as [A B].
  destruct (eqb k k'); cbn; rewrite ?V, ?A; [exact B|exact (IH B)].
Qed.
Lemma goods_get {K} (eqb : K -> K -> bool) k v (l : list (K * val)) : goods l = true -> dget eqb k l = Some v -> good v = true.
Proof.
  induction l as [|[k' x] l IH]; cbn; [discriminate|]. intros G E. apply andb_true_iff in G. destruct G as [A B]. destruct (eqb k k'); [injection E as <-; exact A|exact (IH B E)].
Qed.
Definition fit c (d : adict) : bool := forallb (fun p => match p with (n, x) => shape c n x end) d.
Lemma fit_dset c n v d : fit c d = true -> shape c n v = true -> fit c (dset String.eqb n v d) = true.
Proof.
  intros G V. induction d as [|[k' x] l IH]; [cbn; now rewrite V|]. cbn in G |- *. apply andb_true_iff in G. destruct G as [A B].
  destruct (String.eqb_spec n k') as [->|]; cbn; rewrite ?V, ?A; [exact B|exact (IH B)].
Qed.
Lemma all_good {A} (f : A -> val) l : (forall x, good (f x) = true) -> forallb good (map f l) = true.
Proof. intros H. induction l; cbn; [reflexivity|]. rewrite H, IHl. reflexivity. Qed.

Ltac ok H := cbn [bind] in H; match type of H with
  | bind ?x _ = Ok _ => let E := fresh "E" in destruct x eqn:E; [cbn [bind] in H|discriminate H]
  | (match ?x with _ => _ end) = Ok _ => let E := fresh "E" in destruct x eqn:E; try discriminate H
  end.
Ltac oks H := repeat ok H; try (injection H as H); subst; try reflexivity.

Lemma map_res_length {A B} (f : A -> res B) l l' : map_res f l = Ok l' -> length l' = length l.
Proof. revert l'. induction l as [|x l IH]; intros l' H; cbn in H; [injection H as <-; reflexivity|]. ok H. ok H. injection H as <-. cbn. f_equal. apply IH. reflexivity. Qed.
Lemma dsk_good v w : dsk_setstate v = Ok w -> good w = true.
Proof.
  unfold dsk_setstate. intros H. destruct v; try discriminate H.
  1,2: destruct ((zlen bs =? 16) || (zlen bs =? 0)) eqn:L; [|discriminate H]; injection H as <-; cbn [good]; unfold zlen in L; assert (length bs = 16%nat \/ length bs = 0%nat) as [-> | ->] by lia; reflexivity.
  destruct (negb (zlen (split 45 s) =? 8)) eqn:L; [injection H as <-; reflexivity|]. ok H. injection H as <-. cbn [good].
  apply map_res_length in E. unfold zlen in L. assert (length a = 8%nat) as N by lia. clear -N. do 9 (destruct a as [|? a]; [discriminate N || reflexivity|]). discriminate N.
Qed.
Lemma iter_good v l : good v = true -> iter_val v = Ok l -> forallb good l = true.
Proof. intros G H. destruct v; try discriminate H; injection H as <-; try exact G; apply all_good; intros x; try reflexivity. cbn. destruct (snd x); reflexivity. Qed.
Lemma items_good v l : good v = true -> items v = Ok l -> goods l = true.
Proof. intros G H. destruct v; try discriminate H; injection H as <-; exact G. Qed.
Lemma vardict_good key co l : (forall v w, good v = true -> co v = Ok w -> good w = true) -> forall acc r, goods l = true -> goods acc = true -> vardict_setstate key co l acc = Ok r -> goods r = true.
Proof.
  intros C. induction l as [|[k v] l IH]; intros acc r G A H; cbn in H; [injection H as <-; exact A|]. destruct (key k); [|discriminate H]. ok H.
  cbn in G. apply andb_true_iff in G. destruct G as [G1 G2]. apply (IH _ _ G2) in H; [exact H|]. apply goods_dset; [exact A|exact (C _ _ G1 E)].
Qed.
Lemma construct_good t v w : good v = true -> construct t v = Ok w -> good w = true.
Proof.
  intros G H. destruct (ClassProofs.construct_spec _ _ _ H) as [T _].
  destruct t; cbn [SpecClass.has_type] in T; try (destruct T as (? & ->); reflexivity); try discriminate H.
  - cbn [construct] in H. ok H. injection H as <-. exact (iter_good _ _ G E).
  - destruct T as [(? & ->)|[(? & ->)|[(? & ? & ? & ->)|[(? & ? & ->)|(? & ->)]]]]; reflexivity.
  - destruct T as (? & ? & ? & ? & ->). reflexivity.
Qed.
Lemma coerce_good t v w : good v = true -> setattr_coerce t v = Ok w -> good w = true.
Proof.
  intros G H. unfold setattr_coerce in H. destruct (isinst v t); [injection H as <-; exact G|]. destruct (has_setstate t) eqn:S.
  - destruct t; try discriminate S; cbn [setstate] in H.
    + exact (dsk_good _ _ H).
    + unfold nodes_setstate in H. ok H. ok H. injection H as <-. reflexivity.
    + ok H. ok H. injection H as <-. refine (vardict_good _ _ _ _ _ _ (items_good _ _ G E) _ E0); [|reflexivity].
      intros x y X. unfold optdata_coerce. destruct (isinst x TOptData); [|discriminate]. intros [= <-]. exact X.
    + ok H. ok H. injection H as <-. refine (vardict_good _ _ _ _ _ _ (items_good _ _ G E) _ E0); [|reflexivity].
      intros x y X. unfold meta_coerce. destruct x; intros J; try (injection J as <-; reflexivity); ok J; injection J as <-; reflexivity.
    + injection H as <-. reflexivity.
  - destruct v; try exact (construct_good _ _ _ G H). unfold construct_star in H.
    assert (D : forall t0, (exists x, l = [x] /\ construct t0 x = Ok w) -> good w = true).
    { intros t0 (x & -> & J). apply (construct_good _ _ _ (proj1 (proj1 (andb_true_iff _ _) G)) J). }
    destruct t; try (destruct l as [|x [|]]; try discriminate H; apply (D _ (ex_intro _ x (conj eq_refl H)))).
    destruct l as [|x [|y [|z [|]]]]; try discriminate H; try exact (D _ (ex_intro _ x (conj eq_refl H))).
    all: destruct x; try discriminate H; try exact (D _ (ex_intro _ _ (conj eq_refl H))); destruct y; try discriminate H; destruct z; try discriminate H; injection H as <-; reflexivity.
Qed.
(** attributes declared with an enum have a numeric type *)
Definition numty (t : aty) : bool := match t with TInt _ _ | TUb _ | TBits _ => true | _ => false end.
Definition suited (c : cls) : Prop := forall n e, enum_of c n = Some e -> exists a, find_attr n (class_attrs c) = Some a /\ numty (a_ty a) = true.
Definition suited_b (c : cls) : bool :=
  forallb (fun x => negb (String.eqb (fst (fst x)) (cls_name c)) || match find_attr (snd (fst x)) (class_attrs c) with Some a => numty (a_ty a) | None => false end) enums.
Lemma suited_by c : suited_b c = true -> suited c.
Proof.
  intros B n e E. unfold enum_of in E. destruct (find _ enums) as [x|] eqn:F; [|discriminate E]. apply find_some in F. destruct F as [I F]. apply andb_true_iff in F. destruct F as [F1 F2].
  unfold suited_b in B. rewrite forallb_forall in B. specialize (B _ I). rewrite F1 in B. cbn [negb orb] in B. apply String.eqb_eq in F2. subst n. destruct (find_attr _ _) as [a|]; [|discriminate B]. eauto.
Qed.
Lemma all_suited_b : forallb (fun s => suited_b (CMsg s)) registry = true.
Proof. vm_compute. reflexivity. Qed.
Lemma msg_suited h s : lookup h = Some s -> suited (CMsg s).
Proof. intros L. apply find_some in L. pose proof all_suited_b as A. rewrite forallb_forall in A. exact (suited_by _ (A _ (proj1 L))). Qed.
Lemma all_consistent : forallb consistent registry = true.
Proof. vm_compute. reflexivity. Qed.
Lemma msg_consistent h s : lookup h = Some s -> consistent s = true.
Proof. intros L. apply find_some in L. pose proof all_consistent as A. rewrite forallb_forall in A. exact (A _ (proj1 L)). Qed.
Lemma sub_suited c : match c with CEncap | CRoute | COption | CGroupInfo => True | _ => False end -> suited c.
Proof. destruct c; intros []; apply suited_by; vm_compute; reflexivity. Qed.

Lemma setattr_good attrs n v d d' u : good v = true -> goods d = true -> setattr attrs n v d = Ok (d', u) -> goods d' = true.
Proof.
  intros V D H. unfold setattr in H. destruct (find_attr n attrs); [|injection H as <- _; exact D]. ok H. pose proof (coerce_good _ _ _ V E) as G.
  destruct (aget n d); [|injection H as <- _; apply goods_dset; assumption]. match type of H with bind ?x _ = _ => destruct x as [[|]|]; [cbn [bind] in H|cbn [bind] in H|discriminate H] end; injection H as <- _; [exact D|apply goods_dset; assumption].
Qed.
Lemma num_type t w : SpecClass.has_type t w -> negb (numeric t) || isnum w = true.
Proof.
  intros T. destruct t; cbn [SpecClass.has_type numeric negb orb] in *; try reflexivity; try (destruct T as (z & ->); reflexivity).
  destruct T as [(? & ->)|[(? & ->)|[(? & ? & ? & ->)|[(? & ? & ->)|(? & ->)]]]]; reflexivity.
Qed.
Lemma setattr_fit c n v d d' u : suited c -> fit c d = true -> setattr (class_attrs c) n v d = Ok (d', u) -> fit c d' = true.
Proof.
  intros S D H. unfold setattr in H. destruct (find_attr n (class_attrs c)) as [at_|] eqn:F; [|injection H as <- _; exact D]. ok H.
  assert (W : shape c n a = true).
  { apply andb_true_iff. split; [|rewrite F; apply ClassProofs.coerce_converted in E; destruct E as [E _]; exact (num_type _ _ E)]. destruct (enum_of c n) as [e|] eqn:E1; [|reflexivity]. destruct (S n e E1) as (a' & F' & T). rewrite F in F'. injection F' as <-. apply ClassProofs.coerce_converted in E. destruct E as [E _].
    destruct (a_ty at_); try discriminate T; destruct E as (z & ->); reflexivity. }
  destruct (aget n d); [|injection H as <- _; apply fit_dset; assumption]. match type of H with bind ?x _ = _ => destruct x as [[|]|]; [cbn [bind] in H|cbn [bind] in H|discriminate H] end; injection H as <- _; [exact D|apply fit_dset; assumption].
Qed.
Lemma parse_good hk ds c : suited c -> (forall h d r v r', goods d = true -> hk h d r = Ok (v, r') -> good v = true) -> (forall t r v r', ds t r = Ok (v, r') -> good v = true) ->
  forall todo d r d' r', goods d = true -> fit c d = true -> parse_attrs hk ds (class_attrs c) todo d r = Ok (d', r') -> goods d' = true /\ fit c d' = true.
Proof.
  intros S HK DS. induction todo as [|a todo IH]; intros d r d' r' G F H; cbn [parse_attrs] in H; [injection H as <- _; auto|].
  destruct (bytesLeft r =? 0); [injection H as <- _; auto|].
  match type of H with bind ?x _ = _ => destruct x as [[v r1]|] eqn:E; [|discriminate H] end. cbn [bind] in H.
  match type of H with bind ?x _ = _ => destruct x as [[d1 u]|] eqn:E1; [|discriminate H] end. cbn [bind] in H.
  refine (IH _ _ _ _ _ _ H); [|exact (setattr_fit _ _ _ _ _ _ S F E1)].
  refine (setattr_good _ _ _ _ _ _ _ G E1). destruct (a_parse a); [exact (HK _ _ _ _ _ G E)|exact (DS _ _ _ _ E)].
Qed.
Lemma meta_loop_good f : forall acc r l r', goods acc = true -> meta_loop f acc r = Ok (l, r') -> goods l = true.
Proof.
  induction f as [|f IH]; intros acc r l r' G H; cbn [meta_loop] in H; destruct (bytesLeft r =? 0); try discriminate H; try (injection H as <- _; exact G).
  repeat match type of H with bind ?x _ = _ => destruct x as [[? ?]|] eqn:?; [cbn [bind] in H|discriminate H] end. refine (IH _ _ _ _ _ H). apply goods_dset; [exact G|reflexivity].
Qed.
Ltac pairs H := repeat match type of H with
  | bind ?x _ = _ => let p := fresh "p" in destruct x as [p|] eqn:?; [cbn [bind] in H; try (destruct p as [? ?]; cbv beta iota in H)|discriminate H]
  end.
Lemma dskN_good n r v r' : dsk_deserializeN n r = Ok (v, r') -> good v = true.
Proof. unfold dsk_deserializeN. intros H. repeat match type of H with (if ?c then _ else _) = _ => destruct c end; try discriminate H; pairs H; injection H as <- _; reflexivity. Qed.
Lemma ds0_good t r v r' : ds0 t r = Ok (v, r') -> good v = true.
Proof.
  intros H. destruct t; cbn [ds0] in H; try discriminate H.
  all: first [solve [pairs H; injection H as <- _; reflexivity]
             |solve [destruct (remaining r); injection H as <- _; reflexivity]
             |solve [unfold float_deserialize in H; pairs H; injection H as <- _; reflexivity]
             |exact (dskN_good _ _ _ _ H)|idtac].
  - destruct (remaining r). pairs H. injection H as <- _. cbn [good]. unfold nodes_val. apply all_good. intros x. cbn. destruct (snd x); reflexivity.
  - pairs H. injection H as <- _. cbn [good]. eapply meta_loop_good; [|eassumption]. reflexivity.
Qed.
Lemma sub_good c r v r' : match c with CEncap | CRoute | COption | CGroupInfo => True | _ => False end -> parse_sub c r = Ok (v, r') -> good v = true.
Proof.
  intros C. unfold parse_sub. intros H. pairs H. injection H as <- _. cbn [good]. apply andb_true_iff. split; [|destruct c; destruct C; reflexivity]. apply andb_true_iff.
  refine (parse_good _ _ _ (sub_suited _ C) _ _ _ _ _ _ _ _ _ Heqr0); [discriminate|exact ds0_good|reflexivity|reflexivity].
Qed.
Lemma ime_good ty bs v : ime_load ty bs = Ok v -> good v = true.
Proof.
  unfold ime_load. intros H. destruct ty as [|p|p]; [|do 4 (try destruct p as [p|p|])|]; try (pairs H; injection H as <-; reflexivity); try (injection H as <-; reflexivity).
  pairs H. injection H as <-. eapply sub_good; [|eassumption]; exact I.
Qed.
Lemma maint_good f : forall acc r l, goods acc = true -> maint_loop f acc r = Ok l -> goods l = true.
Proof.
  induction f as [|f IH]; intros acc r l G H; cbn [maint_loop] in H; destruct (bytesLeft r =? 0); try discriminate H; try (injection H as <-; exact G).
  match type of H with bind ?x _ = _ => destruct x as [[ty r1]|]; [cbn [bind] in H|discriminate H] end. destruct (negb (ime_type_ok ty)); [discriminate H|].
  match type of H with bind ?x _ = _ => destruct x as [[ln r2]|]; [cbn [bind] in H|discriminate H] end.
  match type of H with bind ?x _ = _ => destruct x as [[bs r3]|]; [cbn [bind] in H|discriminate H] end.
  match type of H with bind ?x _ = _ => destruct x as [v|] eqn:E; [cbn [bind] in H|discriminate H] end. refine (IH _ _ _ _ H). apply goods_dset; [exact G|exact (ime_good _ _ _ E)].
Qed.
Lemma opt_good h d r v r' : hk1 h d r = Ok (v, r') -> good v = true.
Proof.
  destruct h; try discriminate. cbn [hk1]. unfold parse_optionData. intros H. pairs H. destruct (aget "optionType" d); [|discriminate H]. ok H. 
  destruct a as [|p|p]; try discriminate H. do 3 (try destruct p as [p|p|]); try discriminate H; pairs H; injection H as <- _; try reflexivity.
  - cbn [good]. eapply maint_good; [|eassumption]. reflexivity.
  - eapply sub_good; [|eassumption]; exact I.
Qed.
Lemma hdr_good f : forall acc r l, goods acc = true -> hdr_loop f acc r = Ok l -> goods l = true.
Proof.
  induction f as [|f IH]; intros acc r l G H; cbn [hdr_loop] in H; destruct (bytesLeft r >? 0); try discriminate H; try (injection H as <-; exact G).
  match type of H with bind ?x _ = _ => destruct x as [[d r1]|] eqn:P; [cbn [bind] in H|discriminate H] end. destruct (aget "optionType" d); [|discriminate H]. ok H. refine (IH _ _ _ _ H). apply goods_dset; [exact G|].
  destruct (aget "optionData" d) eqn:O; [|reflexivity]. refine (goods_get String.eqb _ _ _ _ O). refine (proj1 (parse_good _ _ COption (sub_suited COption I) _ _ _ _ _ _ _ _ _ P)); [intros; eapply opt_good; eassumption|exact ds0_good|reflexivity|reflexivity].
Qed.
Lemma hdr_des_good r v r' : hdr_deserialize r = Ok (v, r') -> good v = true.
Proof. unfold hdr_deserialize. intros H. pairs H. injection H as <- _. cbn [good]. eapply hdr_good; [|eassumption]. reflexivity. Qed.
Lemma agi_cmd_good f : forall i n acc r l r', forallb good acc = true -> agi_cmd_loop f i n acc r = Ok (l, r') -> forallb good l = true.
Proof.
  induction f as [|f IH]; intros i n acc r l r' G H; cbn [agi_cmd_loop] in H; [injection H as <- _; exact G|]. destruct (i <? n); [|injection H as <- _; exact G].
  pairs H. refine (IH _ _ _ _ _ _ _ H). rewrite forallb_app, G. reflexivity.
Qed.
Lemma agi_groups_good n : forall acc r l r', forallb good acc = true -> agi_groups_loop n acc r = Ok (l, r') -> forallb good l = true.
Proof.
  induction n as [|n IH]; intros acc r l r' G H; cbn [agi_groups_loop] in H; [injection H as <- _; exact G|]. pairs H. refine (IH _ _ _ _ _ H). rewrite forallb_app, G. cbn. rewrite (sub_good CGroupInfo _ _ _ I Heqr0). reflexivity.
Qed.
Section Hooks.
  Variable dsm : reader -> res (val * reader).
  Hypothesis M : forall r v r', dsm r = Ok (v, r') -> good v = true.
  Lemma hook_good h d r v r' : goods d = true -> hk2 dsm h d r = Ok (v, r') -> good v = true.
  Proof.
    intros G H. destruct h; cbn [hk2] in H; try discriminate H.
    - pairs H. injection H as <- _. reflexivity.
    - pairs H. injection H as <- _. eapply M. eassumption.
    - destruct (aget "headerExtIncluded" d) as [x|]; [destruct (truthy x)|]; try (injection H as <- _; reflexivity). exact (hdr_des_good _ _ _ H).
    - pairs H. destruct (p - 7 >? bytesLeft r); [destruct (remaining r)|pairs H]; injection H as <- _; cbn [good]; apply all_good; reflexivity.
    - pairs H. injection H as <- _. cbn [good]. eapply agi_cmd_good; [|eassumption]. reflexivity.
    - pairs H. injection H as <- _. cbn [good]. eapply agi_groups_good; [|eassumption]. reflexivity.
    - pairs H. exact (dskN_good _ _ _ _ H).
    - pairs H. injection H as <- _. reflexivity.
  Qed.
  Lemma ds2_good t r v r' : ds2 dsm t r = Ok (v, r') -> good v = true.
  Proof. destruct t; cbn [ds2]; try apply ds0_good; [apply hdr_des_good|apply M]. Qed.
End Hooks.
Lemma deserialize_good f : forall r v r', deserialize f r = Ok (v, r') -> good v = true.
Proof.
  induction f as [|f IH]; intros r v r' H; [discriminate H|]. cbn [deserialize] in H. destruct (bytesLeft r <? 2); [injection H as <- _; reflexivity|]. pairs H.
  match type of H with context [lookup ?x] => destruct (lookup x) as [s|] eqn:L end; [|injection H as <- _; reflexivity]. pairs H. injection H as <- _. cbn [good]. apply andb_true_iff. split; [|exact (msg_consistent _ _ L)]. apply andb_true_iff.
  match goal with E : parse_attrs _ _ _ _ _ _ = Ok _ |- _ => refine (parse_good _ _ (CMsg s) (msg_suited _ _ L) _ _ _ _ _ _ _ _ _ E) end; [exact (hook_good _ IH)|exact (ds2_good _ IH)|reflexivity|reflexivity].
Qed.
Lemma decode_good bs m : decode bs = Ok m -> good m = true.
Proof. unfold decode. intros H. pairs H. injection H as <-. eapply deserialize_good. eassumption. Qed.
Lemma inside_good x m : inside x m -> good m = true -> good x = true.
Proof.
  induction 1 as [|x c d n v J I IH]; [auto|]. intros G. apply IH. cbn [good] in G. apply andb_true_iff in G. destruct G as [G _]. apply andb_true_iff in G. destruct G as [G _]. rewrite forallb_forall in G. exact (G _ J).
Qed.

(** ** Descriptions *)
Lemma sequence_ok l : Forall (fun r => exists t, r = Ok t) l -> exists ts, sequence l = Ok ts.
Proof. induction 1 as [|r l (t & ->) _ (ts & E)]; cbn; [eauto|]. rewrite E. cbn. eauto. Qed.
Lemma listed_ok a l b : Forall (fun r => exists t, r = Ok t) l -> exists t, listed a l b = Ok t.
Proof. intros H. unfold listed. destruct (sequence_ok l H) as (ts & ->). cbn. eauto. Qed.
Lemma dsk_ok bs : Nat.even (length bs) = true -> exists t, dsk_text bs = Ok t.
Proof.
  intros E. unfold dsk_text. enough (exists ws, dsk_words bs = Ok ws) as (ws & ->) by (cbn; eauto).
  remember (length bs) as n eqn:L. revert bs L E. induction n as [n IH] using (well_founded_induction Wf_nat.lt_wf). intros [|a [|b bs]] -> E; cbn in *; try discriminate; [eauto|].
  destruct (IH (length bs) ltac:(lia) bs eq_refl E) as (ws & ->). cbn. eauto.
Qed.
Section Show.
Variable str_text : pystr -> pystr.
Variable float_text : Z -> Z -> pystr.
Variable ip_text : Z -> pystr.
Variable flag_text : enum -> Z -> pystr.
Variable object_text : val -> pystr.
Variable ord : list Z -> list Z.
Notation repr := (repr str_text float_text ip_text object_text ord).
Notation show := (show str_text float_text ip_text flag_text object_text ord).
Notation debug_string := (debug_string str_text float_text ip_text flag_text object_text ord).

Lemma repr_ok : forall v, good v = true -> exists t, repr v = Ok t.
Proof.
  fix IH 1. intros v G.
  assert (P : forall key (l : list (Z * val)), (forall k x, In (k, x) l -> exists t, repr x = Ok t) -> exists t, listed (txt "{") (map (fun p => match p with (k, x) => do t <- repr x; Ok (key k ++ txt ": " ++ t) end) l) (txt "}") = Ok t).
  { intros key l H. apply listed_ok. apply Forall_forall. intros r J. apply in_map_iff in J. destruct J as ([k x] & <- & J). destruct (H k x J) as (t & ->). cbn. eauto. }
  assert (L : forall l, forallb good l = true -> (forall x, In x l -> good x = true -> exists t, repr x = Ok t) -> Forall (fun r => exists t, r = Ok t) (map repr l)).
  { intros l F H. apply Forall_forall. intros r J. apply in_map_iff in J. destruct J as (x & <- & J). rewrite forallb_forall in F. exact (H x J (F x J)). }
  destruct v; cbn [good] in G; cbn [DebugM.repr]; try (eexists; reflexivity).
  - destruct signed; eexists; reflexivity.
  - apply listed_ok, L; [exact G|]. clear -IH. induction l as [|x l I]; [intros ? []|]. intros y [<-|J]; [exact (IH x)|exact (I y J)].
  - apply listed_ok, L; [exact G|]. clear -IH. induction l as [|x l I]; [intros ? []|]. intros y [<-|J]; [exact (IH x)|exact (I y J)].
  - apply P. clear -IH G. induction l as [|[k0 x] l I]; [intros ? ? []|]. cbn in G. apply andb_true_iff in G. destruct G as [A B]. intros k y [[= <- <-]|J]; [exact (IH x A)|exact (I B k y J)].
  - exact (dsk_ok bs G).
  - apply listed_ok. apply Forall_forall. intros r J. apply in_map_iff in J. destruct J as (x & <- & _). eauto.
  - destruct l; [eexists; reflexivity|]. apply listed_ok. apply Forall_forall. intros r J. apply in_map_iff in J. destruct J as (x & <- & _). eauto.
  - destruct l; [eexists; reflexivity|]. apply listed_ok. apply Forall_forall. intros r J. apply in_map_iff in J. destruct J as (x & <- & _). eauto.
  - apply P. clear -IH G. induction l as [|[k0 x] l I]; [intros ? ? []|]. cbn in G. apply andb_true_iff in G. destruct G as [A B]. intros k y [[= <- <-]|J]; [exact (IH x A)|exact (I B k y J)].
  - apply P. clear -IH G. induction l as [|[k0 x] l I]; [intros ? ? []|]. cbn in G. apply andb_true_iff in G. destruct G as [A B]. intros k y [[= <- <-]|J]; [exact (IH x A)|exact (I B k y J)].
  - apply P. clear -IH G. induction l as [|[k0 x] l I]; [intros ? ? []|]. cbn in G. apply andb_true_iff in G. destruct G as [A B]. intros k y [[= <- <-]|J]; [exact (IH x A)|exact (I B k y J)].
  - destruct c; eexists; reflexivity.
Qed.

Lemma texts_get (f : string -> val -> res pystr) n (d : list (string * val)) :
  dget String.eqb n (map (fun p => match p with (n', x) => (n', f n' x) end) d) = match dget String.eqb n d with Some x => Some (f n x) | None => None end.
Proof. induction d as [|[k x] d IH]; [reflexivity|]. cbn. destruct (String.eqb_spec n k) as [->|]; [reflexivity|exact IH]. Qed.
Lemma get_in n (d : list (string * val)) v : dget String.eqb n d = Some v -> In (n, v) d.
Proof. induction d as [|[k x] d IH]; cbn; [discriminate|]. destruct (String.eqb_spec n k) as [->|]; [intros [= ->]; auto|auto]. Qed.
Lemma get_set n (d : list (string * val)) : existsb (fun p => String.eqb n (fst p)) d = match dget String.eqb n d with Some _ => true | None => false end.
Proof. induction d as [|[k x] d IH]; [reflexivity|]. cbn. destruct (String.eqb n k); [reflexivity|exact IH]. Qed.

Lemma show_ok : forall v e i, good v = true -> fits e v = true -> exists t, show v e i = Ok t.
Proof.
  fix IH 1. intros v e i G F.
  assert (N : forall l : list (Z * val), goods l = true -> (forall k x, In (k, x) l -> good x = true -> exists t, show x None (S i) = Ok t) ->
    forall en, Forall (fun r => exists t, r = Ok t) (map (fun p => match p with (k, x) => do t <- show x None (S i); Ok (line i (member_text en k) t) end) l)).
  { intros l H J en. apply Forall_forall. intros r R. apply in_map_iff in R. destruct R as ([k x] & <- & R). unfold goods in H. rewrite forallb_forall in H. destruct (J k x R (H _ R)) as (t & ->). cbn. eauto. }
  assert (Q : forall l : list (Z * val), forall k x, In (k, x) l -> good x = true -> exists t, show x None (S i) = Ok t).
  { clear -IH. intros l. induction l as [|[k0 x0] l I]; [intros ? ? []|]. intros k x [[= <- <-]|J] B; [exact (IH x0 None (S i) B eq_refl)|exact (I k x J B)]. }
  destruct v; try (cbn [DebugM.show]; unfold attr_text; destruct e as [e|]; [cbn in F; try discriminate F; cbn; eauto|apply repr_ok; exact G]).
  - cbn [good] in G. destruct (sequence_ok _ (N l G (Q l) e_Zip_ZIPPacketOptionType)) as (ts & E). cbn [DebugM.show]. rewrite E. cbn. eauto.
  - cbn [good] in G. destruct (sequence_ok _ (N l G (Q l) e_NodeProvisioning_MetadataExtensionType)) as (ts & E). cbn [DebugM.show]. rewrite E. cbn. eauto.
  - cbn [good] in G. destruct (sequence_ok _ (N l G (Q l) e_Zip_IMEType)) as (ts & E). cbn [DebugM.show]. rewrite E. cbn. eauto.
  - assert (L : forall n x, In (n, x) attrs -> good x = true -> fits (enum_of c n) x = true -> exists t, show x (enum_of c n) (S i) = Ok t).
    { clear -IH. induction attrs as [|[n0 x0] l I]; [intros ? ? []|]. intros k x [[= <- <-]|J] B C; [exact (IH x0 _ (S i) B C)|exact (I k x J B C)]. }
    destruct (repr_ok (VObj c attrs) G) as (h & R). cbn [good] in G. apply andb_true_iff in G. destruct G as [G _]. apply andb_true_iff in G. destruct G as [G1 G2]. rewrite forallb_forall in G1, G2.
    assert (S : Forall (fun r => exists t, r = Ok t) (flat_map (fun a => match dget String.eqb (a_name a) (map (fun p => match p with (n, x) => (n, show x (enum_of c n) (S i)) end) attrs) with
        | Some r => [do t <- r; Ok (line i (txt (a_name a)) t)] | None => [] end) (class_attrs c))).
    { apply Forall_forall. intros r J. apply in_flat_map in J. destruct J as (a & _ & J). rewrite (texts_get (fun n x => show x (enum_of c n) (S i))) in J. destruct (dget String.eqb (a_name a) attrs) as [x|] eqn:D; [|destruct J].
      apply get_in in D. pose proof (G1 _ D) as B1. pose proof (G2 _ D) as B2. cbv beta iota in B1, B2. apply andb_true_iff in B2. destruct (L _ _ D B1 (proj1 B2)) as (t & E). destruct J as [<-|[]]. rewrite E. cbn. eauto. }
    destruct (sequence_ok _ S) as (ls & E). cbn [DebugM.show]. rewrite E. cbn [bind]. rewrite R. cbn. eauto.
Qed.
Lemma total bs m x : decode bs = Ok m -> inside x m -> (exists c d, x = VObj c d) -> exists t, debug_string x = Ok t.
Proof. intros D I (c & d & ->). exact (show_ok _ None 0%nat (inside_good _ _ I (decode_good _ _ D)) eq_refl). Qed.
End Show.

(** ** Numbers in text *)
Lemma txt_lit s : txt s = lit s.
Proof. induction s as [|a s IH]; [reflexivity|]. cbn. f_equal. exact IH. Qed.
Lemma digit_ok d : 0 <= d <= 15 -> digit_is (digit d) d.
Proof. intros H. unfold digit, digit_is. destruct (Z.ltb_spec d 10); [left|right]; lia. Qed.
Lemma digits_numeral b f : 2 <= b <= 16 -> forall n acc, 0 <= n < 2 ^ Z.of_nat f -> (0 < f)%nat -> exists t, digits b f n acc = t ++ acc /\ numeral b t n.
Proof.
  intros B. induction f as [|f IH]; intros n acc R F; [lia|]. cbn [digits]. destruct (Z.ltb_spec n b).
  - exists [digit n]. split; [reflexivity|]. apply Num_one; [apply digit_ok|]; lia.
  - rewrite Nat2Z.inj_succ, Z.pow_succ_r in R by lia. pose proof (Z.div_mod n b ltac:(lia)) as DM. pose proof (Z.mod_pos_bound n b ltac:(lia)) as MB.
    assert (0 <= n / b) by (apply Z.div_pos; lia). assert (n / b < 2 ^ Z.of_nat f) by (apply Z.div_lt_upper_bound; nia).
    assert ((0 < f)%nat) by (destruct f; [change (2 ^ Z.of_nat 0) with 1 in *; assert (1 <= n / b) by (apply Z.div_le_lower_bound; lia)|]; lia).
    destruct (IH (n / b) (digit (n mod b) :: acc) ltac:(lia) ltac:(assumption)) as (t & -> & T). exists (t ++ [digit (n mod b)]). rewrite <- app_assoc. split; [reflexivity|].
    replace n with (n / b * b + n mod b) at 2 by lia. apply Num_more; [exact T|apply digit_ok; lia|lia].
Qed.
Lemma udigits_numeral b n : 2 <= b <= 16 -> 0 <= n -> numeral b (udigits b n) n.
Proof.
  intros B N. destruct (ValueProofs.dec_fuel_ok n N) as [F1 F2]. destruct (digits_numeral b (dec_fuel n) B n [] ltac:(lia) F2) as (t & E & T). unfold udigits. rewrite E, app_nil_r. exact T.
Qed.
Lemma lead_zero b t n : 2 <= b -> numeral b t n -> numeral b (48 :: t) n.
Proof.
  intros B. induction 1 as [c d D L|t n c d T IH D L].
  - change [48; c] with ([48] ++ [c]). enough (numeral b ([48] ++ [c]) (0 * b + d)) as Q by (replace (0 * b + d) with d in Q by lia; exact Q). apply Num_more; auto. apply (Num_one b 48 0); [left|]; lia.
  - change (48 :: t ++ [c]) with ((48 :: t) ++ [c]). apply Num_more; auto.
Qed.
Lemma lead_zeros b k t n : 2 <= b -> numeral b t n -> numeral b (repeat 48 k ++ t) n.
Proof. intros B T. induction k; cbn; [exact T|apply lead_zero; assumption]. Qed.
Lemma format_number b w z : 2 <= b <= 16 -> number b (format b w z) z.
Proof.
  intros B. unfold format, number. destruct (Z.ltb_spec z 0).
  - right. split; [assumption|]. eexists. split; [reflexivity|]. apply lead_zeros; [lia|]. rewrite Z.abs_neq by lia. apply udigits_numeral; lia.
  - left. split; [assumption|]. cbn [app]. apply lead_zeros; [lia|]. rewrite Z.abs_eq by lia. apply udigits_numeral; lia.
Qed.
Lemma format_width b w z : (w <= length (format b w z))%nat.
Proof. unfold format. rewrite !app_length, repeat_length. lia. Qed.
Lemma dec_same f n acc : 0 <= n -> dec_digits f n acc = digits 10 f n acc.
Proof.
  revert n acc. induction f as [|f IH]; intros n acc H; [reflexivity|]. cbn [dec_digits digits]. pose proof (Z.mod_pos_bound n 10 ltac:(lia)) as M. unfold digit. rewrite (proj2 (Z.ltb_lt (n mod 10) 10)) by lia.
  destruct (Z.ltb_spec n 10); [reflexivity|]. apply IH. apply Z.div_pos; lia.
Qed.
Lemma str_number z : number 10 (str_of_Z z) z.
Proof.
  unfold str_of_Z, number. destruct (Z.ltb_spec z 0).
  - right. split; [assumption|]. eexists. split; [reflexivity|]. rewrite dec_same by lia. apply udigits_numeral; lia.
  - left. split; [assumption|]. rewrite dec_same by lia. apply udigits_numeral; lia.
Qed.

(** ** What a description says *)
Lemma member_some e z n : member e z = Some n -> In (z, n) (e_members e).
Proof. unfold member. generalize (e_members e). induction l as [|[k x] l IH]; cbn; [discriminate|]. destruct (Z.eqb_spec z k) as [->|]; [intros [= ->]; auto|auto]. Qed.
Lemma dget_none {V} z (l : list (Z * V)) : dget Z.eqb z l = None -> forall n, ~ In (z, n) l.
Proof. induction l as [|[k x] l IH]; cbn; [intros _ n []|]. destruct (Z.eqb_spec z k) as [->|N]; [discriminate|]. intros E n [[= -> _]|J]; [congruence|exact (IH E n J)]. Qed.
Lemma dget_some {V} z (l : list (Z * V)) n : dget Z.eqb z l = Some n -> In (z, n) l.
Proof. induction l as [|[k x] l IH]; cbn; [discriminate|]. destruct (Z.eqb_spec z k) as [->|]; [intros [= ->]; auto|auto]. Qed.
(** each attribute is declared once *)
Definition key_eqb (a b : string * string) : bool := String.eqb (fst a) (fst b) && String.eqb (snd a) (snd b).
Fixpoint once {V} (l : list (string * string * V)) : bool :=
  match l with [] => true | x :: l' => negb (existsb (fun y => key_eqb (fst x) (fst y)) l') && once l' end.
Lemma enums_once : once enums = true. Proof. vm_compute. reflexivity. Qed.
Lemma find_once {V} (l : list (string * string * V)) a b v : once l = true -> In (a, b, v) l -> find (fun x => String.eqb (fst (fst x)) a && String.eqb (snd (fst x)) b) l = Some (a, b, v).
Proof.
  induction l as [|[[a' b'] v'] l IH]; cbn; [intros _ []|]. intros O. apply andb_true_iff in O. destruct O as [O1 O2]. intros [[= -> -> ->]|J]; [rewrite !String.eqb_refl; reflexivity|].
  destruct (String.eqb_spec a' a) as [->|]; [|exact (IH O2 J)]. destruct (String.eqb_spec b' b) as [->|]; [|exact (IH O2 J)].
  exfalso. apply negb_true_iff in O1. rewrite <- not_true_iff_false in O1. apply O1. apply existsb_exists. exists (a, b, v). split; [exact J|]. unfold key_eqb. cbn. now rewrite !String.eqb_refl.
Qed.
Lemma declared_enum s n e : declared s n e -> enum_of (CMsg s) n = e.
Proof.
  unfold declared, enum_of. cbn [cls_name]. destruct e as [e|]; intros H.
  - rewrite (find_once enums (s_name s) n e enums_once H). reflexivity.
  - destruct (find _ enums) as [[[a b] e]|] eqn:F; [|reflexivity]. apply find_some in F. destruct F as [I F]. apply andb_true_iff in F. destruct F as [F1 F2]. apply String.eqb_eq in F1, F2. cbn in F1, F2. subst. destruct (H e I).
Qed.
Lemma join_unlines l : join [10] l = unlines l.
Proof. induction l as [|x [|y l] IH]; [reflexivity|cbn; now rewrite app_nil_r|]. change (join [10] (x :: y :: l)) with (x ++ [10] ++ join [10] (y :: l)). rewrite IH. reflexivity. Qed.
Lemma sequence_all l ts : sequence l = Ok ts -> Forall2 (fun r t => r = Ok t) l ts.
Proof. revert ts. induction l as [|r l IH]; intros ts H; cbn in H; [injection H as <-; constructor|]. destruct r as [t|]; [|discriminate H]. cbn [bind] in H. destruct (sequence l) as [ts'|]; [|discriminate H]. injection H as <-. constructor; auto. Qed.

Section Says.
Variable str_text : pystr -> pystr.
Variable float_text : Z -> Z -> pystr.
Variable ip_text : Z -> pystr.
Variable flag_text : enum -> Z -> pystr.
Variable object_text : val -> pystr.
Variable ord : list Z -> list Z.
Notation repr := (repr str_text float_text ip_text object_text ord).
Notation show := (show str_text float_text ip_text flag_text object_text ord).
Notation attr_text := (attr_text str_text float_text ip_text flag_text object_text ord).
Notation debug_string := (debug_string str_text float_text ip_text flag_text object_text ord).

Lemma enum_says e v z : (exists sg n, v = VI sg n z) \/ (exists n, v = VU n z) \/ (exists n, v = VB n z) -> says (Some e) v (enum_text flag_text e z).
Proof.
  intros V. unfold enum_text. rewrite !txt_lit. destruct (e_flag e) eqn:F; [apply (Says_mask e v z); auto; apply format_number; lia|].
  destruct (member e z) as [n|] eqn:M; rewrite ?txt_lit.
  - apply (Says_member e v z); auto; [exact (member_some _ _ _ M)|apply format_number; lia].
  - apply (Says_unknown e v z); auto; [exact (dget_none _ _ M)|apply format_number; lia].
Qed.
Lemma text_says e v i t : isnum v = true -> fits e v = true -> show v e i = Ok t -> says e v t.
Proof.
  intros N F H. destruct e as [e|].
  - destruct v; try discriminate F; cbn in H; injection H as <-; apply enum_says; eauto.
  - destruct v; try discriminate N; cbn [DebugM.show DebugM.attr_text DebugM.repr] in H; try destruct signed; injection H as <-; rewrite ?txt_lit.
    all: first [solve [constructor; apply str_number]
               |solve [apply Says_unsigned; [apply format_number; lia|apply str_number]]
               |solve [apply Says_bits; [apply format_number; lia|]; intros _; apply format_width]|idtac].
    pose proof (Says_flag z) as P. destruct (z =? 0); exact P.
Qed.
Lemma heading_ok s : heading s (message_text (s_hid s) (s_NAME s)).
Proof.
  unfold heading, message_text. rewrite !txt_lit. assert (Z.land (Z.shiftr (s_hid s) 8) 255 = s_hid s / 256 mod 256) as ->.
  { change 255 with (Z.ones 8). rewrite Z.land_ones, Z.shiftr_div_pow2 by lia. reflexivity. }
  assert (Z.land (s_hid s) 255 = s_hid s mod 256) as ->. { change 255 with (Z.ones 8). rewrite Z.land_ones by lia. reflexivity. }
  do 2 eexists. split; [|split; [|reflexivity]].
  - destruct (dget Z.eqb _ cmd_classes) as [n|] eqn:D; rewrite ?txt_lit.
    + left. exists n. split; [exact (dget_some _ _ _ D)|reflexivity].
    + right. split; [exact (dget_none _ _ D)|]. eexists. split; [reflexivity|apply format_number; lia].
  - destruct (String.eqb_spec (s_NAME s) "") as [E|E]; rewrite ?txt_lit; [right|left]; split; auto. eexists. split; [reflexivity|apply format_number; lia].
Qed.
Definition is_message (v : val) : Prop := match v with VObj (CMsg _) _ => True | _ => False end.
Lemma show_describes : forall v i t, is_message v -> good v = true -> show v None i = Ok t -> describes i v t.
Proof.
  fix IH 1. intros v i t E G H. destruct v as [| | | | | | | | | | | | | | | | | | | | | | | | |c d]; try (destruct E; fail). destruct c; try (destruct E; fail).
  assert (L : forall n x, In (n, x) d -> good x = true -> forall j t, is_message x -> show x None j = Ok t -> describes j x t).
  { clear -IH. induction d as [|[n0 x0] l I]; [intros ? ? []|]. intros n x [[= <- <-]|J] B j t E S; [exact (IH x0 j t E B S)|exact (I n x J B j t E S)]. }
  cbn [good] in G. apply andb_true_iff in G. destruct G as [G G3]. apply andb_true_iff in G. destruct G as [G1 G2]. rewrite forallb_forall in G1, G2. unfold consistent in G3. rewrite forallb_forall in G3.
  cbn [DebugM.show] in H. match type of H with bind (sequence ?l) _ = _ => destruct (sequence l) as [ls|] eqn:S; [|discriminate H] end. cbn [bind DebugM.repr] in H. injection H as <-.
  unfold block. rewrite txt_lit, join_unlines. apply Describes; [apply heading_ok|]. apply sequence_all in S. cbn [class_attrs] in S. clear IH.
  assert (A : forall a, In a (s_attrs s) -> In a (s_attrs s)) by auto. revert A ls S. generalize (s_attrs s) at 1 3 4. induction l as [|a l IHl]; intros A ls S; [cbn in S; inversion S; constructor|].
  cbn [flat_map filter] in S |- *. rewrite (texts_get (fun n x => show x (enum_of (CMsg s) n) (Datatypes.S i))) in S. unfold set_in at 1. rewrite get_set.
  destruct (dget String.eqb (a_name a) d) as [x|] eqn:D; [|exact (IHl (fun a' J => A a' (or_intror J)) ls S)].
  cbn [app] in S. inversion S as [|r l0 R ls0 S1 S2]; subst. constructor; [|exact (IHl (fun a' J => A a' (or_intror J)) ls0 S2)].
  destruct (show x (enum_of (CMsg s) (a_name a)) (Datatypes.S i)) as [t|] eqn:X; [|discriminate S1]. cbn [bind] in S1. injection S1 as <-. apply get_in in D. exists x, t.
  pose proof (G1 _ D) as B1. pose proof (G2 _ D) as B2. cbv beta iota in B1, B2. apply andb_true_iff in B2. destruct B2 as [B2 B3].
  split; [exact D|]. split; [unfold line; rewrite !txt_lit; reflexivity|]. split.
  - intros N e DE. apply declared_enum in DE. subst e. refine (text_says _ _ _ _ _ B2 X). pose proof (G3 _ (A a (or_introl eq_refl))) as C. rewrite N in C. cbn [negb orb] in C.
    cbn [class_attrs] in B3. destruct (find_attr (a_name a) (s_attrs s)) as [b|]; [|discriminate C]. rewrite C in B3. exact B3.
  - intros s' d' ->. refine (L _ _ D B1 _ _ I _). destruct (enum_of (CMsg s) (a_name a)); [discriminate B2|exact X].
Qed.
Lemma described bs m s d x : decode bs = Ok m -> inside x m -> x = VObj (CMsg s) d -> exists t, debug_string x = Ok t /\ describes 0 x t.
Proof.
  intros D I ->. destruct (total str_text float_text ip_text flag_text object_text ord _ _ _ D I (ex_intro _ _ (ex_intro _ _ eq_refl))) as (t & T). exists t. split; [exact T|].
  exact (show_describes (VObj (CMsg s) d) _ _ Logic.I (inside_good _ _ I (decode_good _ _ D)) T).
Qed.
End Says.

(** ** A text tells one number *)
Definition dv (c : Z) : Z := if c <=? 57 then c - 48 else c - 55.
Lemma digit_dv c d : digit_is c d -> dv c = d /\ 48 <= c.
Proof. unfold digit_is, dv. destruct (Z.leb_spec c 57); lia. Qed.
Lemma numeral_value b t n : numeral b t n -> fold_left (fun acc c => acc * b + dv c) t 0 = n /\ Forall (fun c => 48 <= c) t.
Proof.
  induction 1 as [c d D L|t n c d T (IH & F) D L]; apply digit_dv in D; destruct D as [D C].
  - cbn. split; [lia|]. constructor; [exact C|constructor].
  - rewrite fold_left_app, IH. cbn. split; [lia|]. apply Forall_app. split; [exact F|]. constructor; [exact C|constructor].
Qed.
Lemma number_unique b t y z : 2 <= b <= 16 -> number b t y -> number b t z -> y = z.
Proof.
  intros _ [(_ & A)|(_ & t1 & E1 & A)] [(_ & B)|(_ & t2 & E2 & B)]; apply numeral_value in A, B; destruct A as [A FA], B as [B FB].
  - congruence.
  - subst t. inversion FA. cbn in *. lia.
  - subst t. inversion FB. cbn in *. lia.
  - rewrite E1 in E2. injection E2 as ->. lia.
Qed.
