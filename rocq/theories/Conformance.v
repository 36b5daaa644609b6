(** Fidelity checks: the test vectors of /repo/tests evaluated on the model.  These are examples, not
    properties; they guard against transcription mistakes in Codec.v. *)
From Coq Require Import String ZArith List Bool.
From Verif Require Import Py BitStream Schema Registry Codec.
Import ListNotations.
Open Scope list_scope.
Open Scope Z_scope.

Definition dec_attr (bs : list Z) (n : string) : res val := do m <- decode bs; Ok (getattr m n).
Definition recompose (bs : list Z) : res (list Z) := do m <- decode bs; compose m.
Definition class_name (v : val) : string := match v with VObj (CMsg s) _ => s_name s | _ => ""%string end.

(** tests/test_cc_zip.py l.12-30 *)
Definition pkt_nlget := [35; 2; 128; 80; 2; 0; 0; 82; 1; 2].
Example zip1 : recompose pkt_nlget = Ok pkt_nlget. Proof. vm_compute. reflexivity. Qed.
Example zip1a : dec_attr pkt_nlget "secureOrigin" = Ok (VF 1). Proof. vm_compute. reflexivity. Qed.
Example zip1b : dec_attr pkt_nlget "seqNo" = Ok (VI false 1 2). Proof. vm_compute. reflexivity. Qed.
Example zip1c : (do v <- dec_attr pkt_nlget "command"; Ok (class_name v)) = Ok "NetworkManagementProxy.NodeListGet"%string.
Proof. vm_compute. reflexivity. Qed.
(** tests/test_cc_zip.py l.33-52 *)
Definition pkt_nlrep :=
  [35; 2; 0; 208; 96; 0; 0; 5; 132; 2; 4; 0; 82; 2; 1; 0; 1; 33] ++ repeat 0 28.
Example zip2 : (do v <- dec_attr pkt_nlrep "command"; Ok (getattr v "nodes")) = Ok (VNodeList [1; 6]).
Proof. vm_compute. reflexivity. Qed.
Example zip2a : (do m <- decode pkt_nlrep; do r <- zip_response m true false false false; compose r)
                = Ok [35; 2; 64; 16; 96; 0; 0]. Proof. vm_compute. reflexivity. Qed.
(** tests/test_cc_zip.py l.78-98 *)
Example zip3 :
  (do (v, _) <- hdr_deserialize (new_reader
     [30;3;27;0;1;0;1;2;0;109;2;5;52;0;0;0;2;3;5;126;127;127;127;127;4;1;1;5;1;1]);
   setstate THdr v)
  = Ok (VHdr [(3, VMaint [(0, VI false 1 0); (1, VI false 2 109);
       (2, VObj CRoute [("repeater1"%string, VI false 1 52); ("repeater2"%string, VI false 1 0);
                        ("repeater3"%string, VI false 1 0); ("repeater4"%string, VI false 1 0);
                        ("speed"%string, VI false 1 2)]);
       (3, VBytes [126;127;127;127;127]); (4, VI false 1 1); (5, VI false 1 1)])]).
Proof. vm_compute. reflexivity. Qed.
(** tests/test_cc_meter.py *)
Example meter1 : dec_attr [0x32;2;0xA1;0x6C;0;0;0;0x25;0;0;0x43] "meterValue" = Ok (VFloatT 37 3 4 1).
Proof. vm_compute. reflexivity. Qed.
(** tests/test_cc_supervision.py *)
Example sup1 : (do v <- dec_attr [0x6C;1;3;3;0x20;3;2] "command"; Ok (class_name v, getattr v "value"))
               = Ok ("Basic.Report"%string, VI false 1 2). Proof. vm_compute. reflexivity. Qed.
(** tests/test_cc_mailbox.py *)
Example mb1 : dec_attr [105;6;72] "queueHandle" = Ok (VI false 1 72). Proof. vm_compute. reflexivity. Qed.
Example mb2 : dec_attr [105;6;0xfd;0;0xbb;0xbb;0;0;0;0;0;0;0;0;0;0;0;114] "queueHandle" = Ok (VI false 1 114).
Proof. vm_compute. reflexivity. Qed.
(** tests/test_cc_nodeprovisioning.py, tests/test_types.py l.137-160 *)
Definition raw_dsk := [126;77;112;34;241;217;180;169;168;19;214;10;108;114;164;224].
Definition txt_dsk : pystr :=
  [51;50;51;51;51;45;50;56;55;48;54;45;54;49;57;49;51;45;52;54;50;52;57;45;52;51;48;50;55;45;53;52;55;57;52;45;
   50;55;55;54;50;45;52;50;50;48;56].
Example dsk1 : dec_attr ([120;4;2;1;16] ++ raw_dsk ++ [109;1;1;105;1;0;110;2;0;0]) "dsk" = Ok (VDsk raw_dsk).
Proof. vm_compute. reflexivity. Qed.
Example dsk2 : dsk_text raw_dsk = Ok txt_dsk. Proof. vm_compute. reflexivity. Qed.
Example dsk3 : dsk_setstate (VStr txt_dsk) = Ok (VDsk raw_dsk). Proof. vm_compute. reflexivity. Qed.
(** tests/test_cc_networkmanagementinclusion.py l.17-68 *)
Definition pkt_nas := [0x34;2;12;6;0;78;0x15;0xd3;0x9c;4;0x10;1;94;37;39;133;92;112;114;117;134;90;89;115;122;104;35;0;0;0].
Example nas1 : dec_attr pkt_nas "commandClass" = Ok (VList (map VInt [94;37;39;133;92;112;114;117;134;90;89;115;122;104])).
Proof. vm_compute. reflexivity. Qed.
Example nas2 : dec_attr (firstn 21 pkt_nas) "commandClass" = Ok (VList (map VInt [94;37;39;133;92;112;114;117;134])).
Proof. vm_compute. reflexivity. Qed.
(** tests/test_message.py *)
Example msg1 : (do m <- new_msg m_Basic_Report []; compose m) = Err EAttribute. Proof. vm_compute. reflexivity. Qed.
Example msg2 : dec_attr [0x85;3;1;5;0] "nodes" = Ok (VList []). Proof. vm_compute. reflexivity. Qed.
(** tests/test_cc_configuration.py l.57-75 *)
Example cfg1 : dec_attr [0x70;6;1;1;9] "value" = Ok (VInt 9). Proof. vm_compute. reflexivity. Qed.
Example cfg2 :
  (do m <- new_msg m_Configuration_Set
        [("parameterNumber"%string, VInt 1); ("default"%string, VBool false); ("size"%string, VInt 4);
         ("value"%string, VInt 0x12345678)]; compose m)
  = Ok [0x70;4;1;4;0x12;0x34;0x56;0x78]. Proof. vm_compute. reflexivity. Qed.
(** tests/test_cc_zip_nd.py *)
Definition pkt_nd := [88;1;0;6;0;0;0;0;0;0;0;0;0;0;255;255;0xc0;0xa8;0;0xee;0xea;0xec;0xfa;0xf9].
Example nd1 : recompose pkt_nd = Ok pkt_nd. Proof. vm_compute. reflexivity. Qed.
Example nd2 : dec_attr pkt_nd "ipv6" = Ok (VIPv6 0xffffc0a800ee). Proof. vm_compute. reflexivity. Qed.
(** tests/test_cc_sensormultilevel.py l.93-97 *)
Example sens1 : dec_attr [0x31;2;1] "bitMask" = Ok (VSensors [1]). Proof. vm_compute. reflexivity. Qed.
Example sens2 : dec_attr [0x31;2;5] "bitMask" = Ok (VSensors [1; 3]). Proof. vm_compute. reflexivity. Qed.
(** tests/test_cc_associationgrpinfo.py l.50-62 *)
Example agi1 : dec_attr [89;6;9;2;0x31;5] "commandClass" = Ok (VList [VList [VInt 49; VInt 5]]).
Proof. vm_compute. reflexivity. Qed.
Example agi2 : dec_attr [89;4;0x81;1;0;113;7;0;0;0] "groups" =
  Ok (VList [VObj CGroupInfo [("groupingIdentifier"%string, VI false 1 1); ("mode"%string, VI false 1 0);
     ("profile"%string, VI false 2 0x7107); ("-"%string, VB 8 0); ("eventCode"%string, VI false 2 0)]]).
Proof. vm_compute. reflexivity. Qed.
(** tests/test_types.py l.219-232 *)
Example fl1 : float_deserialize (new_reader [0x22;0;123]) = Ok (VTuple [VFloat 123 1; VInt 2; VInt 0], mkR [0x22;0;123] 24).
Proof. vm_compute. reflexivity. Qed.
Example fl2 : float_deserialize (new_reader [0x22;255;0x82]) = Ok (VTuple [VFloat (-126) 1; VInt 2; VInt 0], mkR [0x22;255;0x82] 24).
Proof. vm_compute. reflexivity. Qed.
(** tests/test_types.py l.73-79 *)
Example rd1 : (let (_, r) := remaining (new_reader [2;1;203;64]) in (bytesLeft r, rbyte r)) = (0, Err EEOF).
Proof. vm_compute. reflexivity. Qed.
(** tests/test_types.py l.88-106 *)
Example wr1 : (do w <- addBits 1 1 new_writer; do w <- addBits 3 2 w; do w <- addBits 3 5 w; do w <- addBits 1 1 w; Ok (w_buf w))
              = Ok [0xE3; 0x80]. Proof. vm_compute. reflexivity. Qed.
Example wr2 : (do w <- addBytes 2 1 false new_writer; do w <- addBytes 2 2 false w; do w <- addBytes (-2) 1 true w; Ok (w_buf w))
              = Ok [2; 0; 2; 0xFE]. Proof. vm_compute. reflexivity. Qed.
