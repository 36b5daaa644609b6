(** Vocabulary for descriptions: numbers in text, and what the text of an attribute says.  Uses the types of Schema.v and the tables of DebugTab.v. *)
From Coq Require Import String Ascii ZArith List Bool.
From Verif Require Import Py Schema DebugTab.
Import ListNotations.
Open Scope list_scope.
Open Scope string_scope.
Open Scope list_scope.
Open Scope Z_scope.

(** the characters of a literal *)
Definition lit (s : string) : pystr := map (fun a => Z.of_nat (nat_of_ascii a)) (list_ascii_of_string s).
(** [t] is the number [z] written to base [b]: digits 0-9 A-F, a sign before a negative number *)
Definition digit_is (c d : Z) : Prop := (0 <= d <= 9 /\ c = 48 + d) \/ (10 <= d <= 15 /\ c = 65 + (d - 10)).
Inductive numeral (b : Z) : pystr -> Z -> Prop :=
| Num_one c d : digit_is c d -> d < b -> numeral b [c] d
| Num_more t n c d : numeral b t n -> digit_is c d -> d < b -> numeral b (t ++ [c]) (n * b + d).
Definition number (b : Z) (t : pystr) (z : Z) : Prop := (0 <= z /\ numeral b t z) \/ (z < 0 /\ exists t', t = lit "-" ++ t' /\ numeral b t' (- z)).

(** [says e v t]: [t] tells the value of an attribute of a numeric type; [e] is the enum it is declared with *)
Inductive says : option enum -> val -> pystr -> Prop :=
| Says_unsigned n z h d : number 16 h z -> number 10 d z -> says None (VI false n z) (lit "0x" ++ h ++ lit " (" ++ d ++ lit ")")
| Says_signed n z d : number 10 d z -> says None (VI true n z) d
| Says_small n z d : number 10 d z -> says None (VU n z) d
| Says_int z d : number 10 d z -> says None (VInt z) d
| Says_bool b : says None (VBool b) (lit (if b then "True" else "False"))
| Says_delay z d : number 10 d z -> says None (VDelay z) d
| Says_bits n z b : number 2 b z -> (0 <= z -> (Z.to_nat n <= length b)%nat) -> says None (VB n z) (lit "bits_t(" ++ b ++ lit ")")
| Says_flag z : says None (VF z) (lit (if z =? 0 then "flag_t(False)" else "flag_t(True)"))
| Says_member e v z name h : e_flag e = false -> (exists sg n, v = VI sg n z) \/ (exists n, v = VU n z) \/ (exists n, v = VB n z) -> In (z, name) (e_members e) -> number 16 h z ->
    says (Some e) v (lit name ++ lit " (0x" ++ h ++ lit ")")
| Says_unknown e v z h : e_flag e = false -> (exists sg n, v = VI sg n z) \/ (exists n, v = VU n z) \/ (exists n, v = VB n z) -> (forall name, ~ In (z, name) (e_members e)) -> number 16 h z ->
    says (Some e) v (lit "UNKNOWN (0x" ++ h ++ lit ")")
| Says_mask e v z t b : e_flag e = true -> (exists sg n, v = VI sg n z) \/ (exists n, v = VU n z) \/ (exists n, v = VB n z) -> number 2 b z -> says (Some e) v (t ++ lit " (" ++ b ++ lit ")").
(** the attribute's type is one of these *)
Definition numeric (t : aty) : bool := match t with TInt _ _ | TUb _ | TBits _ | TRes _ | TFlag | TPyInt => true | _ => false end.
(** the enum attribute [n] of message class [s] is declared with *)
Definition declared (s : schema) (n : string) (e : option enum) : Prop :=
  match e with Some e => In (s_name s, n, e) enums | None => forall e, ~ In (s_name s, n, e) enums end.
(** lines of text *)
Fixpoint unlines (l : list pystr) : pystr :=
  match l with [] => [] | x :: l' => x ++ match l' with [] => [] | _ => 10 :: unlines l' end end.
(** how a message class is named: command class and command, by name if they have one and else by number *)
Definition class_named (c : Z) (t : pystr) : Prop :=
  (exists n, In (c, n) cmd_classes /\ t = lit n) \/ ((forall n, ~ In (c, n) cmd_classes) /\ exists h, t = lit "0x" ++ h /\ number 16 h c).
Definition command_named (c : Z) (name : string) (t : pystr) : Prop :=
  (name <> "" /\ t = lit name) \/ (name = "" /\ exists h, t = lit "0x" ++ h /\ number 16 h c).
Definition heading (s : schema) (t : pystr) : Prop :=
  exists a b, class_named (s_hid s / 256 mod 256) a /\ command_named (s_hid s mod 256) (s_NAME s) b /\ t = lit "<Z-Wave " ++ a ++ lit "." ++ b ++ lit ">".
(** [describes i m t]: [t] describes message [m], its lines indented by [i + 1] tabs: a heading, then one line for each attribute that is set, in the order
    of the class, telling the value if it is a number and describing it, one tab further, if it is a message *)
Definition set_in (d : list (string * val)) (a : attr) : bool := existsb (fun p => String.eqb (a_name a) (fst p)) d.
Inductive describes : nat -> val -> pystr -> Prop :=
| Describes i s d h ls : heading s h ->
    Forall2 (fun a l => exists v t, In (a_name a, v) d /\ l = repeat 9 (S i) ++ lit (a_name a) ++ lit " = " ++ t /\
                        (numeric (a_ty a) = true -> forall e, declared s (a_name a) e -> says e v t) /\
                        (forall s' d', v = VObj (CMsg s') d' -> describes (S i) v t))
            (filter (set_in d) (s_attrs s)) ls ->
    describes i (VObj (CMsg s) d) (h ++ lit ":" ++ [10] ++ unlines ls).
(** [x] is [m] or in an attribute of an object inside [m] *)
Inductive inside : val -> val -> Prop :=
| In_self m : inside m m
| In_attr x c d n v : In (n, v) d -> inside x v -> inside x (VObj c d).
