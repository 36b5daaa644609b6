(** Proofs about the UDP connection object (UdpM.v, SpecUdp.v). *)
From Coq Require Import ZArith List Bool Lia.
From Verif Require Import Py UdpM SpecUdp.
Import ListNotations.
Open Scope Z_scope.

Lemma nth_upd {A} (l : list A) i x j : nth_error (upd l i x) j = if Nat.eqb j i then match nth_error l i with Some _ => Some x | None => None end else nth_error l j.
Proof.
  unfold upd. revert i j. induction l as [|a l IH]; intros [|i] [|j]; cbn; try reflexivity. destruct (Nat.eqb j i); reflexivity.
  rewrite <- IH. reflexivity.
Qed.
Lemma upd_length {A} (l : list A) i x : length (upd l i x) = length l.
Proof. unfold upd. revert i. induction l as [|a l IH]; intros [|i]; cbn; try reflexivity. f_equal. apply IH. Qed.
Lemma upd_nil {A} (l : list A) i x : upd l i x = [] -> l = [].
Proof. destruct l, i; cbn; congruence. Qed.
Lemma forall_upd {A} (P : A -> Prop) l i x : (forall j a, nth_error l j = Some a -> P a) -> P x -> forall j a, nth_error (upd l i x) j = Some a -> P a.
Proof. intros H K j a. rewrite nth_upd. destruct (Nat.eqb j i); [destruct (nth_error l i); intros E; inversion E; subst; assumption|apply H]. Qed.

(** ** delivery *)
Definition op_role (sv : bool) (o : opening) : Prop := match o with OpPending b | OpMade b _ => b = sv | OpDone => True end.
Record role (sv : bool) (s : udp) (k : nat -> bool) : Prop :=
  { ro_ends : forall e p, nth_error (u_ends s) e = Some p -> k e = sv;
    ro_tasks : forall t o, nth_error (u_tasks s) t = Some o -> op_role sv o;
    ro_flag : (sv = true -> u_tasks s <> []) -> u_server s = sv;
    ro_some : u_ends s <> [] -> u_tasks s <> [] }.

Lemma calls_app a b : calls (a ++ b) = calls a ++ calls b.
Proof. apply flat_map_app. Qed.
Lemma shut_ends s e j p : nth_error (u_ends (shut s e)) j = Some p -> exists p', nth_error (u_ends s) j = Some p'.
Proof. unfold shut. destruct (nth_error (u_ends s) e) eqn:E; [|eauto]. cbn. rewrite nth_upd. destruct (Nat.eqb j e) eqn:J; [|eauto]. apply Nat.eqb_eq in J as ->. rewrite E. eauto. Qed.
Lemma shut_rest s e : u_sock (shut s e) = u_sock s /\ u_cb (shut s e) = u_cb s /\ u_server (shut s e) = u_server s /\ u_tasks (shut s e) = u_tasks s.
Proof. unfold shut. destruct (nth_error (u_ends s) e); auto. Qed.
Lemma shut_nil s e : u_ends (shut s e) <> [] -> u_ends s <> [].
Proof. unfold shut. destruct (nth_error (u_ends s) e); [cbn|auto]. intros H E. apply H. rewrite E. destruct e; reflexivity. Qed.
Lemma upd_some {A} (l : list A) i x j p : nth_error (upd l i x) j = Some p -> exists p', nth_error l j = Some p'.
Proof. rewrite nth_upd. destruct (Nat.eqb j i) eqn:J; [|eauto]. apply Nat.eqb_eq in J as ->. destruct (nth_error l i); [eauto|discriminate]. Qed.
Lemma upd_nonnil {A} (l : list A) i x : upd l i x <> [] -> l <> [].
Proof. intros H E. apply H. rewrite E. destruct i; reflexivity. Qed.
Lemma upd_nonnil' {A} (l : list A) i x : l <> [] -> upd l i x <> [].
Proof. intros H E. apply H. exact (upd_nil _ _ _ E). Qed.

Lemma delivery (sv : bool) vs : (forall v, In v vs -> v <> (if sv then UConnect else UListen)) -> forall s k, role sv s k ->
  calls (snd (urun s vs)) = due (u_cb s) k (snd (urun s vs)).
Proof.
  induction vs as [|v vs IH]; intros R s k H; [reflexivity|]. cbn [urun].
  assert (R' : forall v, In v vs -> v <> (if sv then UConnect else UListen)) by (intros w J; apply R; right; exact J). specialize (IH R').
  pose proof (R v (or_introl eq_refl)) as RV. clear R R'. destruct H as [HE HT HF HS].
  assert (step : forall s1 o (k' : nat -> bool), ustep s v = (s1, o) -> role sv s1 k' -> (forall tr, calls o ++ due (u_cb s1) k' tr = due (u_cb s) k (o ++ tr)) ->
            calls (snd (let (s1, o) := ustep s v in let (s2, o') := urun s1 vs in (s2, o ++ o'))) = due (u_cb s) k (snd (let (s1, o) := ustep s v in let (s2, o') := urun s1 vs in (s2, o ++ o')))).
  { intros s1 o k' E H D. rewrite E. specialize (IH s1 k' H). destruct (urun s1 vs) as [s2 o']. cbn [snd] in *. rewrite calls_app, IH. apply D. }
  assert (same : role sv s k) by (split; assumption).
  assert (more : forall b t o, nth_error (u_tasks s ++ [OpPending b]) t = Some o -> b = sv -> op_role sv o).
  { intros b t o. destruct (Nat.lt_ge_cases t (length (u_tasks s))) as [L|L]; [rewrite nth_error_app1 by exact L; intros E _; exact (HT _ _ E)|rewrite nth_error_app2 by exact L].
    destruct (t - length (u_tasks s))%nat as [|[|?]]; cbn; intros E F; inversion E; exact F. }
  assert (nn : forall b, u_tasks s ++ [OpPending b] <> []) by (intros b E; apply app_eq_nil in E as [_ E]; discriminate).
  destruct v; cbn [ustep] in step |- *.
  - eapply step; [reflexivity| |reflexivity]. assert (sv = false) as -> by (destruct sv; [contradiction RV; reflexivity|reflexivity]). split; cbn; try assumption.
    + intros t o E. exact (more _ _ _ E eq_refl).
    + intros _. apply HF. discriminate.
    + intros _. apply nn.
  - eapply step; [reflexivity| |reflexivity]. assert (sv = true) as -> by (destruct sv; [reflexivity|contradiction RV; reflexivity]). split; cbn; try assumption.
    + intros t o E. exact (more _ _ _ E eq_refl).
    + reflexivity.
    + intros _. apply nn.
  - destruct (nth_error (u_tasks s) t) as [[b|b e|]|] eqn:T; try (eapply step; [reflexivity|exact same|reflexivity]).
    pose proof (HT _ _ T) as B. cbn in B. subst b.
    eapply (step _ _ (fun e' => if Nat.eqb e' (length (u_ends s)) then sv else k e')); [reflexivity| |reflexivity]. split; cbn.
    + intros e p. destruct (Nat.eqb e (length (u_ends s))) eqn:E; [reflexivity|]. apply Nat.eqb_neq in E. intros P. apply (HE e p).
      assert (e < length (u_ends s))%nat by (assert (X : nth_error (u_ends s ++ [{| e_server := sv; e_open := true; e_lost := false; e_run := false |}]) e <> None) by congruence; apply nth_error_Some in X; rewrite app_length in X; cbn in X; lia).
      rewrite nth_error_app1 in P by assumption. exact P.
    + apply forall_upd; [exact HT|reflexivity].
    + intros P. apply HF. intros Q. specialize (P Q). exact (upd_nonnil _ _ _ P).
    + intros _ E. apply upd_nil in E. rewrite E in T. destruct t; discriminate.
  - destruct (nth_error (u_tasks s) t) as [[b|b e|]|] eqn:T; try (eapply step; [reflexivity|exact same|reflexivity]).
    eapply step; [reflexivity| |reflexivity]. split; cbn; try assumption.
    + apply forall_upd; [exact HT|exact I].
    + intros P. apply HF. intros Q. specialize (P Q). exact (upd_nonnil _ _ _ P).
    + intros P. apply upd_nonnil'. exact (HS P).
  - destruct (nth_error (u_tasks s) t) as [[b|b e|]|] eqn:T; try (eapply step; [reflexivity|exact same|reflexivity]).
    eapply step; [reflexivity| |reflexivity]. split; cbn.
    + intros e' p. destruct (nth_error (u_ends s) e); [destruct b|]; try apply HE. intros P. apply upd_some in P as (p' & P). exact (HE _ _ P).
    + apply forall_upd; [exact HT|exact I].
    + intros P. apply HF. intros Q. specialize (P Q). exact (upd_nonnil _ _ _ P).
    + intros P. apply upd_nonnil'. apply HS. destruct (nth_error (u_ends s) e); [destruct b|]; try exact P. exact (upd_nonnil _ _ _ P).
  - eapply step; [reflexivity| |reflexivity]. split; assumption.
  - unfold is_open in *. destruct (nth_error (u_ends s) e) as [p|] eqn:E; [|eapply step; [reflexivity|exact same|reflexivity]].
    destruct (e_open p); [|eapply step; [reflexivity|exact same|reflexivity]]. eapply step; [reflexivity|exact same|]. intros tr. cbn.
    assert (u_server s = sv) as -> by (apply HF; intros _; apply HS; intros N; rewrite N in E; destruct e; discriminate). rewrite <- (HE _ _ E).
    destruct (u_cb s); reflexivity.
  - destruct (u_sock s); (eapply step; [reflexivity|exact same|reflexivity]).
  - destruct (u_sock s); (eapply step; [reflexivity|exact same|reflexivity]).
  - destruct (u_sock s) as [e|]; [|eapply step; [reflexivity|exact same|reflexivity]]. destruct (shut_rest s e) as (S1 & S2 & S3 & S4).
    eapply step; [reflexivity| |intros; rewrite S2; reflexivity]. split; rewrite ?S3, ?S4; try assumption.
    + intros e' p P. apply shut_ends in P as (p' & P). exact (HE _ _ P).
    + intros P. apply HS. exact (shut_nil _ _ P).
  - destruct (nth_error (u_ends s) e) as [p|]; [|eapply step; [reflexivity|exact same|reflexivity]]. destruct (e_lost p); [eapply step; [reflexivity|exact same|reflexivity]|].
    eapply step; [reflexivity| |reflexivity]. split; cbn; try assumption.
    + intros e' q P. apply upd_some in P as (p' & P). exact (HE _ _ P).
    + intros P. apply HS. exact (upd_nonnil _ _ _ P).
  - destruct (nth_error (u_ends s) e) as [p|]; [|eapply step; [reflexivity|exact same|reflexivity]]. destruct (e_lost p && e_run p); [|eapply step; [reflexivity|exact same|reflexivity]].
    destruct (u_sock s) as [e'|].
    + match goal with |- context [shut ?s1 _] => set (s0 := s1) in * end. destruct (shut_rest s0 e') as (S1 & S2 & S3 & S4).
      eapply step; [reflexivity| |intros; rewrite S2; reflexivity]. split; rewrite ?S3, ?S4; try assumption.
      * intros e1 q P. apply shut_ends in P as (p' & P). apply upd_some in P as (p1 & P). exact (HE _ _ P).
      * intros P. apply HS. apply shut_nil in P. exact (upd_nonnil _ _ _ P).
    + eapply step; [reflexivity| |reflexivity]. split; cbn; try assumption.
      * intros e' q P. apply upd_some in P as (p' & P). exact (HE _ _ P).
      * intros P. apply HS. exact (upd_nonnil _ _ _ P).
Qed.
Lemma delivered vs : one_role vs -> calls (snd (urun udp0 vs)) = due None (fun _ => false) (snd (urun udp0 vs)).
Proof.
  intros H. destruct (In_dec (fun a b : uevent => ltac:(repeat decide equality) : {a = b} + {a <> b}) UListen vs) as [L|L].
  - assert (K : forall k, due (u_cb udp0) k (snd (urun udp0 vs)) = due (u_cb udp0) k (snd (urun udp0 vs))) by reflexivity.
    rewrite (delivery true vs) with (k := fun _ => false); [reflexivity| |].
    + intros v J ->. apply H. auto.
    + split; cbn; try (intros [|?] ? E; discriminate E); try contradiction. intros P. contradiction (P eq_refl). reflexivity.
  - rewrite (delivery false vs) with (k := fun _ => false); [reflexivity| |].
    + intros v J ->. contradiction.
    + split; cbn; try (intros [|?] ? E; discriminate E); try contradiction. reflexivity.
Qed.

(** ** sending *)
Lemma urun_app s a b : urun s (a ++ b) = let (s1, o) := urun s a in let (s2, o') := urun s1 b in (s2, o ++ o').
Proof. revert s. induction a as [|v a IH]; intros s; cbn; [destruct (urun s b); reflexivity|]. destruct (ustep s v) as [s1 o]. rewrite IH. destruct (urun s1 a) as [s2 o']. destruct (urun s2 b) as [s3 o'']. rewrite app_assoc. reflexivity. Qed.
Lemma latest_app a b e : latest (a ++ b) e = latest b (latest a e).
Proof. revert e. induction a as [|o a IH]; intros e; [reflexivity|]. destruct o; cbn; apply IH. Qed.
Record sound (s : udp) (tr : list uobs) : Prop :=
  { so_sock : u_sock s = latest tr None;
    so_open : forall e p, nth_error (u_ends s) e = Some p -> (e_open p = true <-> alive e tr);
    so_seen : forall e, In (BClose e) tr \/ In (BLost e) tr -> (e < length (u_ends s))%nat;
    so_made : forall e, u_sock s = Some e -> (e < length (u_ends s))%nat;
    so_task : forall t b e, nth_error (u_tasks s) t = Some (OpMade b e) -> (e < length (u_ends s))%nat }.
Lemma shut_nth s e j : nth_error (u_ends (shut s e)) j = if Nat.eqb j e then option_map (fun p => {| e_server := e_server p; e_open := false; e_lost := e_lost p; e_run := e_run p |}) (nth_error (u_ends s) j) else nth_error (u_ends s) j.
Proof. unfold shut. destruct (Nat.eqb j e) eqn:J; [apply Nat.eqb_eq in J as ->|]; destruct (nth_error (u_ends s) e) eqn:E; cbn; rewrite ?nth_upd, ?Nat.eqb_refl, ?J, ?E; reflexivity. Qed.
Lemma shut_length s e : length (u_ends (shut s e)) = length (u_ends s).
Proof. unfold shut. destruct (nth_error (u_ends s) e); [apply upd_length|reflexivity]. Qed.
Lemma sound0 : sound udp0 [].
Proof. split; cbn; try discriminate; try contradiction; try reflexivity; try (intros [|?] ? E; discriminate E); try (intros [|?] ? ? E; discriminate E). intros e [[]|[]]. Qed.
Lemma alive_app e a b : alive e (a ++ b) <-> alive e a /\ alive e b.
Proof. unfold alive. rewrite !in_app_iff. tauto. Qed.
Lemma nth_lt {A} (l : list A) i x : nth_error l i = Some x -> (i < length l)%nat.
Proof. intros E. apply nth_error_Some. congruence. Qed.
Lemma sound_step s tr v s1 o : sound s tr -> ustep s v = (s1, o) -> sound s1 (tr ++ o).
Proof.
  intros [SS SO SE SM ST] E.
  assert (quiet : forall s1 o, u_sock s1 = u_sock s -> (forall e, ~ In (BClose e) o /\ ~ In (BLost e) o) -> latest o (u_sock s) = u_sock s -> u_ends s1 = u_ends s ->
            (forall t b e, nth_error (u_tasks s1) t = Some (OpMade b e) -> (e < length (u_ends s))%nat) -> sound s1 (tr ++ o)).
  { intros s' o' E1 N L E2 T. split; rewrite ?E1, ?E2; try assumption.
    - rewrite latest_app, <- SS, L. reflexivity.
    - intros e p P. rewrite alive_app, (SO _ _ P). split; [intros A; split; [exact A|exact (N e)]|tauto].
    - intros e. rewrite !in_app_iff. specialize (N e). specialize (SE e). tauto. }
  destruct v; cbn [ustep] in E.
  - injection E as <- <-. apply quiet; cbn; try tauto; try reflexivity. intros t b e P.
    destruct (Nat.lt_ge_cases t (length (u_tasks s))) as [L|L]; [rewrite nth_error_app1 in P by exact L; exact (ST _ _ _ P)|rewrite nth_error_app2 in P by exact L].
    destruct (t - length (u_tasks s))%nat as [|[|?]]; discriminate P.
  - injection E as <- <-. apply quiet; cbn; try tauto; try reflexivity. intros t b e P.
    destruct (Nat.lt_ge_cases t (length (u_tasks s))) as [L|L]; [rewrite nth_error_app1 in P by exact L; exact (ST _ _ _ P)|rewrite nth_error_app2 in P by exact L].
    destruct (t - length (u_tasks s))%nat as [|[|?]]; discriminate P.
  - destruct (nth_error (u_tasks s) t) as [[b|b e|]|] eqn:T; injection E as <- <-; try (apply quiet; cbn; try tauto; try reflexivity; exact ST).
    split; cbn.
    + rewrite latest_app, <- SS. reflexivity.
    + intros e p P. rewrite alive_app. assert (A : alive e [BMade t (length (u_ends s)) b]) by (split; intros [J|[]]; discriminate J).
      destruct (Nat.lt_ge_cases e (length (u_ends s))) as [L|L]; [rewrite nth_error_app1 in P by exact L; rewrite (SO _ _ P); tauto|rewrite nth_error_app2 in P by exact L].
      destruct (e - length (u_ends s))%nat as [|[|?]] eqn:D; inversion P; cbn. assert (e = length (u_ends s)) as -> by lia. split; [|reflexivity]. intros _. split; [|exact A].
      split; intros J; [specialize (SE (length (u_ends s)) (or_introl J))|specialize (SE (length (u_ends s)) (or_intror J))]; lia.
    + intros e. rewrite app_length, !in_app_iff. cbn. intros J. assert (In (BClose e) tr \/ In (BLost e) tr) as K by intuition discriminate. specialize (SE e K). lia.
    + intros e J. specialize (SM e J). rewrite app_length. lia.
    + intros t' b' e. rewrite nth_upd, T, app_length. cbn. destruct (Nat.eqb t' t); intros P; [injection P as <- <-; lia|specialize (ST _ _ _ P); lia].
  - destruct (nth_error (u_tasks s) t) as [[b|b e|]|] eqn:T; injection E as <- <-; try (apply quiet; cbn; try tauto; try reflexivity; exact ST).
    apply quiet; cbn; try reflexivity; try (intros e; split; intros [J|[]]; discriminate J).
    intros t' b' e. rewrite nth_upd, T. destruct (Nat.eqb t' t); [discriminate|apply ST].
  - destruct (nth_error (u_tasks s) t) as [[b|b e|]|] eqn:T; injection E as <- <-; try (apply quiet; cbn; try tauto; try reflexivity; exact ST).
    pose proof (ST _ _ _ T) as LE. set (es := match nth_error (u_ends s) e with Some _ => _ | None => _ end). 
    assert (EL : length es = length (u_ends s)) by (unfold es; destruct (nth_error (u_ends s) e); [destruct b; [|apply upd_length]|]; reflexivity).
    assert (EO : forall j p, nth_error es j = Some p -> exists q, nth_error (u_ends s) j = Some q /\ e_open q = e_open p).
    { intros j p. unfold es. destruct (nth_error (u_ends s) e) as [q|] eqn:Q; [destruct b|]; eauto. rewrite nth_upd, Q. destruct (Nat.eqb j e) eqn:J; [|eauto]. apply Nat.eqb_eq in J as ->. intros P. injection P as <-. eauto. }
    split; cbn; rewrite ?EL.
    + rewrite latest_app. reflexivity.
    + intros j p P. apply EO in P as (q & P & <-). rewrite alive_app, (SO _ _ P). assert (A : alive j [BReady t e]) by (split; intros [J|[]]; discriminate J). tauto.
    + intros j. rewrite !in_app_iff. cbn. intros J. apply SE. intuition discriminate.
    + intros j J. injection J as <-. exact LE.
    + intros t' b' j. rewrite nth_upd, T. destruct (Nat.eqb t' t); [discriminate|apply ST].
  - injection E as <- <-. apply quiet; cbn; try reflexivity; try (intros e; split; intros [J|[]]; discriminate J). exact ST.
  - destruct (is_open s e); injection E as <- <-; [|apply quiet; cbn; try tauto; try reflexivity; exact ST].
    apply quiet; cbn; try reflexivity; try exact ST; [|destruct (u_cb s); reflexivity]. intros e'. destruct (u_cb s); cbn; intuition discriminate.
  - destruct (u_sock s) as [e|] eqn:U; injection E as <- <-; (apply quiet; cbn; try reflexivity; try exact ST; try assumption; intros e'; intuition discriminate).
  - destruct (u_sock s) as [e|] eqn:U; injection E as <- <-; (apply quiet; cbn; try reflexivity; try exact ST; try assumption; intros e'; intuition discriminate).
  - destruct (u_sock s) as [e|] eqn:U; injection E as <- <-; [|apply quiet; cbn; try reflexivity; try exact ST; try assumption; intros e'; intuition discriminate].
    destruct (shut_rest s e) as (S1 & S2 & S3 & S4). split; rewrite ?shut_length, ?S1, ?S4.
    + rewrite U, latest_app, <- SS. reflexivity.
    + intros j p. rewrite shut_nth, alive_app. destruct (Nat.eqb j e) eqn:J.
      * apply Nat.eqb_eq in J as ->. destruct (nth_error (u_ends s) e); [|discriminate]. cbn. intros P. injection P as <-. cbn. split; [discriminate|]. intros [_ [A _]]. contradiction A. left. reflexivity.
      * apply Nat.eqb_neq in J. intros P. rewrite (SO _ _ P). split; [|tauto]. intros A. split; [exact A|]. split; cbn; intuition congruence.
    + intros j. rewrite !in_app_iff. cbn. intros [[J|[J|[J|[]]]]|[J|[J|[J|[]]]]]; try discriminate J; [apply SE; auto| |apply SE; auto]. injection J as <-. apply SM. reflexivity.
    + intros j. rewrite U. exact (SM j).
    + exact ST.
  - destruct (nth_error (u_ends s) e) as [p|] eqn:P; [|injection E as <- <-; apply quiet; cbn; try tauto; try reflexivity; exact ST].
    destruct (e_lost p); injection E as <- <-; [apply quiet; cbn; try tauto; try reflexivity; exact ST|]. split; cbn; rewrite ?upd_length; try assumption.
    + rewrite latest_app, <- SS. reflexivity.
    + intros j q. rewrite nth_upd, P, alive_app. destruct (Nat.eqb j e) eqn:J.
      * apply Nat.eqb_eq in J as ->. intros Q. injection Q as <-. cbn. split; [discriminate|]. intros [_ [_ A]]. contradiction A. left. reflexivity.
      * apply Nat.eqb_neq in J. intros Q. rewrite (SO _ _ Q). split; [|tauto]. intros A. split; [exact A|]. split; cbn; intuition congruence.
    + intros j. rewrite !in_app_iff. cbn. intros [[J|[J|[]]]|[J|[J|[]]]]; try discriminate J; [apply SE; auto|apply SE; auto|]. injection J as <-. exact (nth_lt _ _ _ P).
  - destruct (nth_error (u_ends s) e) as [p|] eqn:P; [|injection E as <- <-; apply quiet; cbn; try tauto; try reflexivity; exact ST].
    destruct (e_lost p && e_run p); [|injection E as <- <-; apply quiet; cbn; try tauto; try reflexivity; exact ST].
    match type of E with context [shut ?x _] => set (s0 := x) in * end.
    assert (E0 : forall j q, nth_error (u_ends s0) j = Some q -> exists q', nth_error (u_ends s) j = Some q' /\ e_open q' = e_open q).
    { intros j q. unfold s0. cbn. rewrite nth_upd, P. destruct (Nat.eqb j e) eqn:J; [|eauto]. apply Nat.eqb_eq in J as ->. intros Q. injection Q as <-. eauto. }
    assert (L0 : length (u_ends s0) = length (u_ends s)) by apply upd_length.
    destruct (u_sock s) as [e'|] eqn:U; injection E as <- <-.
    + destruct (shut_rest s0 e') as (S1 & S2 & S3 & S4). split; rewrite ?shut_length, ?S1, ?S4, ?L0.
      * cbn. rewrite U, latest_app, <- SS. reflexivity.
      * intros j q. rewrite shut_nth, alive_app. destruct (Nat.eqb j e') eqn:J.
        -- apply Nat.eqb_eq in J as ->. destruct (nth_error (u_ends s0) e'); [|discriminate]. cbn. intros Q. injection Q as <-. cbn. split; [discriminate|]. intros [_ [A _]]. contradiction A. left. reflexivity.
        -- apply Nat.eqb_neq in J. intros Q. apply E0 in Q as (q' & Q & <-). rewrite (SO _ _ Q). split; [|tauto]. intros A. split; [exact A|]. split; cbn; intuition congruence.
      * intros j. rewrite !in_app_iff. cbn. intros [[J|[J|[]]]|[J|[J|[]]]]; try discriminate J; [apply SE; auto| |apply SE; auto]. injection J as <-. apply SM. reflexivity.
      * intros j. cbn. rewrite U. exact (SM j).
      * exact ST.
    + split; rewrite ?L0; try assumption.
      * cbn. rewrite U, app_nil_r. exact SS.
      * intros j q Q. apply E0 in Q as (q' & Q & <-). rewrite app_nil_r. exact (SO _ _ Q).
      * intros j. rewrite app_nil_r. apply SE.
      * intros j. cbn. rewrite U. discriminate.
Qed.
Lemma sound_run vs : forall s tr, sound s tr -> let (s1, o) := urun s vs in sound s1 (tr ++ o).
Proof.
  induction vs as [|v vs IH]; intros s tr H; cbn; [rewrite app_nil_r; exact H|]. destruct (ustep s v) as [s1 o] eqn:E. specialize (IH _ _ (sound_step _ _ _ _ _ H E)).
  destruct (urun s1 vs) as [s2 o']. rewrite app_assoc. exact IH.
Qed.
Lemma app_split {A} (a b c : list A) x d : a ++ b = c ++ x :: d -> (exists r, a = c ++ x :: r /\ d = r ++ b) \/ (exists r, c = a ++ r /\ b = r ++ x :: d).
Proof.
  revert c. induction a as [|y a IH]; intros c E; cbn in E; [right; exists c; auto|]. destruct c as [|z c]; cbn in E; injection E as -> E.
  - left. exists a. auto.
  - destruct (IH _ E) as [(r & -> & ->)|(r & -> & ->)]; [left|right]; exists r; auto.
Qed.
(** each observation belongs to one event *)
Lemma locate vs : forall s tr pre x post, sound s tr -> snd (urun s vs) = pre ++ x :: post ->
  exists s1 v o1 o2 r1 r2, sound s1 (tr ++ r1) /\ snd (ustep s1 v) = o1 ++ x :: o2 /\ pre = r1 ++ o1 /\ post = o2 ++ r2.
Proof.
  induction vs as [|v vs IH]; intros s tr pre x post H E; cbn in E; [destruct pre; discriminate|]. destruct (ustep s v) as [s1 o] eqn:ES. destruct (urun s1 vs) as [s2 o'] eqn:ER. cbn in E.
  apply app_split in E as [(r & -> & ->)|(r & -> & EB)].
  - exists s, v, pre, r, [], o'. rewrite app_nil_r, ES. auto.
  - destruct (IH s1 (tr ++ o) r x post (sound_step _ _ _ _ _ H ES)) as (s3 & v' & o1 & o2 & r1 & r2 & S3 & E3 & -> & ->); [rewrite ER; exact EB|].
    exists s3, v', o1, o2, (o ++ r1), r2. rewrite <- app_assoc in S3. split; [exact S3|]. split; [exact E3|]. rewrite <- app_assoc. auto.
Qed.
Lemma open_alive s tr e : sound s tr -> u_sock s = Some e -> is_open s e = true <-> alive e tr.
Proof.
  intros H U. unfold is_open. destruct (nth_error (u_ends s) e) as [p|] eqn:P; [exact (so_open _ _ H _ _ P)|]. apply nth_error_None in P. pose proof (so_made _ _ H _ U). lia.
Qed.
Lemma send_truth vs pre bs r post : snd (urun udp0 vs) = pre ++ BSend bs r :: post ->
  (r = Ok false /\ latest pre None = None) \/
  (exists pre' e w, r = Ok true /\ pre = pre' ++ [BWrite e bs None w] /\ latest pre' None = Some e /\ (w = true <-> alive e pre')).
Proof.
  intros E. destruct (locate _ _ _ _ _ _ sound0 E) as (s & v & o1 & o2 & r1 & r2 & H & EO & -> & ->). cbn [List.app] in H.
  assert (V : exists bs', v = USend bs').
  { destruct v; cbn [ustep] in EO; try (eexists; reflexivity); exfalso;
      repeat match type of EO with context [match ?x with _ => _ end] => destruct x end; cbn in EO;
      repeat (destruct o1 as [|? o1]; cbn in EO; [discriminate EO|first [discriminate EO|injection EO as ? EO]]). }
  destruct V as (bs' & ->). cbn in EO. pose proof (so_sock _ _ H) as SS. destruct (u_sock s) as [e|] eqn:U; cbn in EO.
  - right. destruct o1 as [|? [|? [|? ?]]]; cbn in EO; try discriminate. injection EO as <- <- <- <-. exists r1, e, (is_open s e). split; [reflexivity|]. split; [reflexivity|]. split; [congruence|].
    exact (open_alive _ _ _ H U).
  - left. destruct o1 as [|? [|? ?]]; cbn in EO; try discriminate. injection EO as <- <- <-. rewrite app_nil_r. auto.
Qed.
(** nothing is written except by send and sendTo *)
Lemma write_called vs pre e bs to w post : snd (urun udp0 vs) = pre ++ BWrite e bs to w :: post ->
  latest pre None = Some e /\ (w = true <-> alive e pre) /\ exists post', post = match to with None => BSend bs (Ok true) | Some a => BSendTo bs a (Ok tt) end :: post'.
Proof.
  intros E. destruct (locate _ _ _ _ _ _ sound0 E) as (s & v & o1 & o2 & r1 & r2 & H & EO & -> & ->). cbn [List.app] in H. pose proof (so_sock _ _ H) as SS.
  destruct v; cbn [ustep] in EO.
  8,9: destruct (u_sock s) as [e'|] eqn:U; cbn in EO; [destruct o1 as [|? [|? [|? ?]]]; cbn in EO; try discriminate; injection EO as <- <- <- <- <-; rewrite app_nil_r; split; [congruence|]; split; [exact (open_alive _ _ _ H U)|eexists; reflexivity]|destruct o1 as [|? [|? ?]]; discriminate EO].
  all: exfalso; repeat match type of EO with context [match ?x with _ => _ end] => destruct x end; cbn in EO;
    repeat (destruct o1 as [|? o1]; cbn in EO; [discriminate EO|first [discriminate EO|injection EO as ? EO]]).
Qed.
(** ** stopping *)
Lemma locate_event vs : forall s pre x post, snd (urun s vs) = pre ++ x :: post ->
  exists vs1 v vs2 o1 o2, vs = vs1 ++ v :: vs2 /\ snd (ustep (fst (urun s vs1)) v) = o1 ++ x :: o2 /\ pre = snd (urun s vs1) ++ o1 /\ exists r, post = o2 ++ r.
Proof.
  induction vs as [|v vs IH]; intros s pre x post E; cbn in E; [destruct pre; discriminate|]. destruct (ustep s v) as [s1 o] eqn:ES. destruct (urun s1 vs) as [s2 o'] eqn:ER. cbn in E.
  apply app_split in E as [(r & -> & ->)|(r & -> & EB)].
  - exists [], v, vs, pre, r. cbn. rewrite ES. eauto 8.
  - destruct (IH s1 r x post) as (vs1 & v' & vs2 & o1 & o2 & -> & E3 & -> & r' & ->); [rewrite ER; exact EB|].
    exists (v :: vs1), v', vs2, o1, o2. cbn. rewrite ES. destruct (urun s1 vs1) as [s3 o3]. cbn in *. rewrite app_assoc. eauto 8.
Qed.
Definition opens (v : uevent) : bool := match v with UConnect | UListen => true | _ => false end.
Definition waits (o : opening) : bool := match o with OpPending _ => true | _ => false end.
Lemma upd_waits l t o x : nth_error l t = Some o -> waits x = false -> (length (filter waits (upd l t x)) + (if waits o then 1 else 0) = length (filter waits l))%nat.
Proof.
  unfold upd. revert t. induction l as [|a l IH]; intros [|t] E W; try discriminate.
  - cbn in *. injection E as ->. rewrite W. destruct (waits o); cbn; lia.
  - cbn in *. specialize (IH _ E W). destruct (waits a); cbn; lia.
Qed.
Lemma few_step s v s1 o : ustep s v = (s1, o) ->
  (length (u_ends s1) + length (filter waits (u_tasks s1)) <= length (u_ends s) + length (filter waits (u_tasks s)) + (if opens v then 1 else 0))%nat.
Proof.
  intros E. destruct v; cbn [ustep opens] in *.
  - injection E as <- <-. cbn. rewrite filter_app, app_length. cbn. lia.
  - injection E as <- <-. cbn. rewrite filter_app, app_length. cbn. lia.
  - destruct (nth_error (u_tasks s) t) as [[b|b e|]|] eqn:T; injection E as <- <-; try lia. cbn. pose proof (upd_waits _ _ _ (OpMade b (length (u_ends s))) T eq_refl) as W. cbn in W. rewrite app_length. cbn. lia.
  - destruct (nth_error (u_tasks s) t) as [[b|b e|]|] eqn:T; injection E as <- <-; try lia. cbn. pose proof (upd_waits _ _ _ OpDone T eq_refl) as W. cbn in W. lia.
  - destruct (nth_error (u_tasks s) t) as [[b|b e|]|] eqn:T; injection E as <- <-; try lia. cbn [u_ends u_tasks]. pose proof (upd_waits _ _ _ OpDone T eq_refl) as W. cbn [waits] in W.
    destruct (nth_error (u_ends s) e); [destruct b|]; rewrite ?upd_length; lia.
  - injection E as <- <-. cbn. lia.
  - destruct (is_open s e); injection E as <- <-; lia.
  - destruct (u_sock s); injection E as <- <-; lia.
  - destruct (u_sock s); injection E as <- <-; lia.
  - destruct (u_sock s) as [e|]; injection E as <- <-; [|lia]. rewrite shut_length. destruct (shut_rest s e) as (_ & _ & _ & ->). lia.
  - destruct (nth_error (u_ends s) e) as [p|]; [destruct (e_lost p)|]; injection E as <- <-; cbn; rewrite ?upd_length; lia.
  - destruct (nth_error (u_ends s) e) as [p|]; [destruct (e_lost p && e_run p); [destruct (u_sock s) as [e'|]|]|]; injection E as <- <-; try lia.
    + match goal with |- context [shut ?x ?y] => rewrite (shut_length x y); destruct (shut_rest x y) as (_ & _ & _ & ->) end. cbn. rewrite upd_length. lia.
    + cbn. rewrite upd_length. lia.
Qed.
Lemma few vs : forall s, (length (u_ends (fst (urun s vs))) <= length (u_ends s) + length (filter waits (u_tasks s)) + length (filter opens vs))%nat.
Proof.
  induction vs as [|v vs IH]; intros s; cbn; [lia|]. destruct (ustep s v) as [s1 o] eqn:E. specialize (IH s1). apply few_step in E. destruct (urun s1 vs) as [s2 o']. cbn in *. destruct (opens v); cbn; lia.
Qed.
Lemma once vs1 vs2 : opened_once (vs1 ++ vs2) -> (length (u_ends (fst (urun udp0 vs1))) <= 1)%nat.
Proof.
  unfold opened_once. change (fun v : uevent => _) with opens. rewrite filter_app, app_length. intros H. pose proof (few vs1 udp0). cbn in *. lia.
Qed.
Lemma sound_at vs : sound (fst (urun udp0 vs)) (snd (urun udp0 vs)).
Proof. pose proof (sound_run vs _ _ sound0) as H. destruct (urun udp0 vs). exact H. Qed.
Lemma stop_closes vs pre post : snd (urun udp0 vs) = pre ++ BStop (Ok tt) :: post -> exists pre' e, pre = pre' ++ [BClose e].
Proof.
  intros E. destruct (locate_event _ _ _ _ _ E) as (vs1 & v & vs2 & o1 & o2 & -> & EO & -> & r & ->). set (s := fst (urun udp0 vs1)) in *.
  destruct v; cbn [ustep] in EO.
  10: destruct (u_sock s) as [e|]; cbn in EO; [destruct o1 as [|? [|? [|? ?]]]; cbn in EO; try discriminate; injection EO as <- <-; eexists _, _; reflexivity|destruct o1 as [|? [|? ?]]; discriminate EO].
  all: exfalso; repeat match type of EO with context [match ?x with _ => _ end] => destruct x end; cbn in EO;
    repeat (destruct o1 as [|? o1]; cbn in EO; [discriminate EO|first [discriminate EO|injection EO as ? EO]]).
Qed.
Lemma closed_bound vs e : In (BClose e) (snd (urun udp0 vs)) \/ In (BLost e) (snd (urun udp0 vs)) -> (e < length (u_ends (fst (urun udp0 vs))))%nat.
Proof. apply (so_seen _ _ (sound_at vs)). Qed.
Lemma stop_quiet vs pre post : opened_once vs -> snd (urun udp0 vs) = pre ++ BStop (Ok tt) :: post -> calls post = [] /\ forall e bs to, ~ In (BWrite e bs to true) post.
Proof.
  intros O E. destruct (stop_closes _ _ _ E) as (pre' & e0 & EP).
  assert (main : forall post1 x post2 e, post = post1 ++ x :: post2 ->
            (forall s v o1 o2, snd (ustep s v) = o1 ++ x :: o2 -> (length (u_ends s) <= 1)%nat -> (forall o, In o o1 -> exists bs from, o = BArrived e bs from) /\ is_open s e = true) -> False).
  { intros post1 x post2 e EX N. rewrite EX in E. assert (E' : snd (urun udp0 vs) = (pre ++ BStop (Ok tt) :: post1) ++ x :: post2) by (rewrite E, <- app_assoc; reflexivity).
    destruct (locate_event _ _ _ _ _ E') as (vs1 & v & vs2 & o1 & o2 & -> & EO & EQ & _). pose proof (once _ _ O) as L1. destruct (N _ _ _ _ EO L1) as [NO OP].
    assert (J : In (BClose e0) (snd (urun udp0 vs1))).
    { assert (K : In (BClose e0) (snd (urun udp0 vs1) ++ o1)) by (rewrite <- EQ, EP; rewrite !in_app_iff; left; right; left; reflexivity). apply in_app_iff in K as [K|K]; [exact K|]. destruct (NO _ K) as (? & ? & ?). discriminate. }
    pose proof (closed_bound _ _ (or_introl J)) as B0. unfold is_open in OP. destruct (nth_error _ e) as [p|] eqn:P in OP; [|discriminate]. pose proof (nth_lt _ _ _ P) as B1.
    assert (e = e0) as -> by lia. apply (so_open _ _ (sound_at vs1) _ _ P) in OP. destruct OP as [OP _]. contradiction. }
  split.
  - destruct (calls post) as [|c l] eqn:C; [reflexivity|exfalso]. assert (J : In c (calls post)) by (rewrite C; left; reflexivity). unfold calls in J. apply in_flat_map in J as (o & J & K).
    apply in_split in J as (p1 & p2 & EX). destruct o as [| | | | |cb bs f| | | | | |]; try contradiction K. clear K C.
    apply (main _ _ _ 0%nat EX). intros s v o1 o2 EO L. destruct v; cbn [ustep] in EO.
    7: destruct (is_open s e) eqn:OP; cbn in EO; [|destruct o1; discriminate EO]; destruct (u_cb s) as [cb'|]; destruct o1 as [|? [|? [|? ?]]]; cbn in EO; try discriminate; injection EO as <- <- <- <- <-;
       (assert (e = 0%nat) as -> by (unfold is_open in OP; destruct (nth_error (u_ends s) e) eqn:P; [pose proof (nth_lt _ _ _ P); lia|discriminate])); split; [intros o [<-|[]]; eauto|exact OP].
    all: exfalso; repeat match type of EO with context [match ?x with _ => _ end] => destruct x end; cbn in EO;
      repeat (destruct o1 as [|? o1]; cbn in EO; [discriminate EO|first [discriminate EO|injection EO as ? EO]]).
  - intros e bs to J. apply in_split in J as (p1 & p2 & EX). apply (main _ _ _ e EX). intros s v o1 o2 EO L. destruct v; cbn [ustep] in EO.
    8,9: destruct (u_sock s) as [e'|] eqn:U; cbn in EO; [destruct o1 as [|? [|? [|? ?]]]; cbn in EO; try discriminate; injection EO; intros; subst; split; [intros o []|assumption]|destruct o1 as [|? [|? ?]]; discriminate EO].
    all: exfalso; repeat match type of EO with context [match ?x with _ => _ end] => destruct x end; cbn in EO;
      repeat (destruct o1 as [|? o1]; cbn in EO; [discriminate EO|first [discriminate EO|injection EO as ? EO]]).
Qed.
(** only stop, or the end of the transport, closes the one socket *)
Lemma lost_seen vs e p : nth_error (u_ends (fst (urun udp0 vs))) e = Some p -> e_lost p = true -> In (BLost e) (snd (urun udp0 vs)).
Proof.
  assert (G : forall vs s tr, (forall e p, nth_error (u_ends s) e = Some p -> e_lost p = true -> In (BLost e) tr) -> forall e p, nth_error (u_ends (fst (urun s vs))) e = Some p -> e_lost p = true -> In (BLost e) (tr ++ snd (urun s vs))).
  { clear. induction vs as [|v vs IH]; intros s tr H e p; cbn; [rewrite app_nil_r; apply H|]. destruct (ustep s v) as [s1 o] eqn:ES. specialize (IH s1 (tr ++ o)). destruct (urun s1 vs) as [s2 o'] eqn:ER. cbn in *.
    rewrite app_assoc. apply IH. clear IH. intros j q. rewrite in_app_iff. 
    assert (sh : forall s' e', (forall j q, nth_error (u_ends s') j = Some q -> e_lost q = true -> In (BLost j) tr \/ In (BLost j) o) -> nth_error (u_ends (shut s' e')) j = Some q -> e_lost q = true -> In (BLost j) tr \/ In (BLost j) o).
    { intros s' e' K. rewrite shut_nth. destruct (Nat.eqb j e'); [|apply K]. destruct (nth_error (u_ends s') j) as [q'|] eqn:Q; [|discriminate]. cbn. intros F. injection F as <-. cbn. apply (K _ _ Q). }
    destruct v; cbn [ustep] in ES; repeat match type of ES with context [match ?x with _ => _ end] => destruct x eqn:? end; injection ES as <- <-; cbn [u_ends with_ends with_tasks]; try (intros P Q; left; exact (H _ _ P Q)).
    - destruct (Nat.lt_ge_cases j (length (u_ends s))) as [L|L]; [rewrite nth_error_app1 by exact L; intros P Q; left; exact (H _ _ P Q)|rewrite nth_error_app2 by exact L].
      destruct (j - length (u_ends s))%nat as [|[|?]]; cbn; intros F; inversion F; discriminate.
    - rewrite nth_upd. destruct (Nat.eqb j e0) eqn:J; [|intros P Q; left; exact (H _ _ P Q)]. apply Nat.eqb_eq in J as ->. intros F. destruct (nth_error (u_ends s) e0) as [q'|] eqn:W; [|discriminate]. injection F as <-. cbn. intros Q. left. refine (H _ _ _ Q). congruence.
    - apply sh. intros j' q' P Q. left. exact (H _ _ P Q).
    - rewrite nth_upd. destruct (Nat.eqb j e0) eqn:J; [|intros P Q; left; exact (H _ _ P Q)]. apply Nat.eqb_eq in J as ->. intros _ _. right. left. reflexivity.
    - apply sh. intros j' q'. cbn. rewrite nth_upd. destruct (Nat.eqb j' e0) eqn:J; [|intros P Q; left; exact (H _ _ P Q)]. apply Nat.eqb_eq in J as ->. intros _ _. left.
      match goal with X : (e_lost _ && e_run _)%bool = true |- _ => apply andb_true_iff in X as [X _]; refine (H _ _ _ X); assumption end.
    - rewrite nth_upd. destruct (Nat.eqb j e0) eqn:J; [|intros P Q; left; exact (H _ _ P Q)]. apply Nat.eqb_eq in J as ->. intros _ _. left.
      match goal with X : (e_lost _ && e_run _)%bool = true |- _ => apply andb_true_iff in X as [X _]; refine (H _ _ _ X); assumption end. }
  intros P Q. apply (G vs udp0 []) with (p := p); try assumption. cbn. intros [|?] ? F; discriminate F.
Qed.
Lemma close_cause vs pre e post : opened_once vs -> snd (urun udp0 vs) = pre ++ BClose e :: post -> (exists post', post = BStop (Ok tt) :: post') \/ In (BLost e) pre.
Proof.
  intros O E. destruct (locate_event _ _ _ _ _ E) as (vs1 & v & vs2 & o1 & o2 & -> & EO & -> & r & ->). pose proof (once _ _ O) as L. pose proof (sound_at vs1) as S. pose proof (lost_seen vs1) as LS. set (s := fst (urun udp0 vs1)) in *.
  destruct v; cbn [ustep] in EO.
  10: destruct (u_sock s) as [e'|]; cbn in EO; [destruct o1 as [|? [|? [|? ?]]]; cbn in EO; try discriminate; injection EO as <- <-; left; eexists; reflexivity|destruct o1 as [|? [|? ?]]; discriminate EO].
  11: { destruct (nth_error (u_ends s) e0) as [p|] eqn:P; [|destruct o1; discriminate EO]. destruct (e_lost p && e_run p) eqn:R; [|destruct o1; discriminate EO]. destruct (u_sock s) as [e'|] eqn:U; [|destruct o1; discriminate EO].
        cbn in EO. destruct o1 as [|? [|? ?]]; cbn in EO; try discriminate. injection EO as <- <-. right. apply andb_true_iff in R as [R _]. pose proof (nth_lt _ _ _ P). pose proof (so_made _ _ S _ U). fold s in H0.
        assert (e' = e0) as -> by lia. apply in_app_iff. left. exact (LS _ _ P R). }
  all: exfalso; repeat match type of EO with context [match ?x with _ => _ end] => destruct x end; cbn in EO;
    repeat (destruct o1 as [|? o1]; cbn in EO; [discriminate EO|first [discriminate EO|injection EO as ? EO]]).
Qed.
