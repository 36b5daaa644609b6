(** C110: descriptions of messages for the log. *)
From Coq Require Import String ZArith List Bool.
From Verif Require Import Py Schema Registry Codec DebugTab DebugM SpecBits SpecDebug.
From Verif Require DebugProofs.
Import ListNotations.
Open Scope list_scope.
Open Scope string_scope.
Open Scope list_scope.
Open Scope Z_scope.

(** Whatever arrives, if it can be decoded then the message and every object in it can be described. *)
Theorem C110_total : forall str_text float_text ip_text flag_text object_text ord bs m c d,
  decode bs = Ok m -> inside (VObj c d) m ->
  exists t, debug_string str_text float_text ip_text flag_text object_text ord (VObj c d) = Ok t.
Proof. exact (fun st ft it fl ot o bs m c d D I => DebugProofs.total st ft it fl ot o bs m (VObj c d) D I (ex_intro _ c (ex_intro _ d eq_refl))). Qed.
(** The description of a registered message names it and has one line for each attribute that was received, in order; lines of numbers tell the number, and
    the name for it where the attribute is declared with an enum; messages in it are described likewise. *)
Theorem C110_lines : forall str_text float_text ip_text flag_text object_text ord bs m s d,
  decode bs = Ok m -> inside (VObj (CMsg s) d) m ->
  exists t, debug_string str_text float_text ip_text flag_text object_text ord (VObj (CMsg s) d) = Ok t /\ describes 0 (VObj (CMsg s) d) t.
Proof. exact (fun st ft it fl ot o bs m s d D I => DebugProofs.described st ft it fl ot o bs m s d (VObj (CMsg s) d) D I eq_refl). Qed.
(** A text tells one number: what is read off a description is what was received. *)
Theorem C110_unique : forall b t y z, 2 <= b <= 16 -> number b t y -> number b t z -> y = z.
Proof. exact DebugProofs.number_unique. Qed.

(** with nothing for what python prints for texts, floats and addresses *)
Definition text_of (bs : list Z) : res pystr :=
  do m <- decode bs; debug_string (fun _ => []) (fun _ _ => []) (fun _ => []) (fun _ _ => []) (fun _ => []) (fun l => l) m.
Definition rows (l : list (nat * string)) : pystr := unlines (map (fun p => repeat 9 (fst p) ++ lit (snd p)) l).
(** a Z/IP packet with a configuration report in it *)
Example C110_case : text_of [35; 2; 128; 80; 1; 0; 0; 112; 6; 3; 1; 255] = Ok (rows
  [(0, "<Z-Wave ZIP.ZIP_PACKET>:"); (1, "ackRequest = flag_t(True)"); (1, "ackResponse = flag_t(False)"); (1, "nackResponse = flag_t(False)");
   (1, "nackWaiting = flag_t(False)"); (1, "nackQueueFull = flag_t(False)"); (1, "nackOptionError = flag_t(False)"); (1, "_ = bits_t(00)");
   (1, "headerExtIncluded = flag_t(False)"); (1, "zwCmdIncluded = flag_t(True)"); (1, "moreInformation = flag_t(False)"); (1, "secureOrigin = flag_t(True)");
   (1, "_ = bits_t(00)"); (1, "seqNo = 0x1 (1)"); (1, "- = bits_t(0)"); (1, "sourceEP = 0"); (1, "- = bits_t(0)"); (1, "destEP = 0");
   (1, "headerExtension = HeaderExtension:"); (0, ""); (1, "command = <Z-Wave CONFIGURATION.REPORT>:"); (2, "parameterNumber = 0x3 (3)"); (2, "- = bits_t(00000)");
   (2, "size = SIZE_8_BIT (0x1)"); (2, "value = 255")])%nat.
Proof. vm_compute. reflexivity. Qed.
(** a value without a name *)
Example C110_case_unknown : text_of [34; 1; 9; 30] = Ok (rows [(0, "<Z-Wave APPLICATION_STATUS.APPLICATION_BUSY>:"); (1, "status = UNKNOWN (0x9)"); (1, "waitTime = 0x1E (30)")])%nat.
Proof. vm_compute. reflexivity. Qed.

Print Assumptions C110_total.
Print Assumptions C110_lines.
Print Assumptions C110_unique.
