(** Configuration.py l.141-145 Configuration.set *)
From Coq Require Import String ZArith List Bool.
From Verif Require Import Py Schema Registry Codec.
Import ListNotations.
Open Scope string_scope.
Open Scope Z_scope.

(** the message that is sent; the cached parameters are not touched *)
Definition cfg_set (k sz v : Z) : res val :=
  new_msg m_Configuration_Set [("parameterNumber", VInt k); ("default", VBool false); ("size", VInt sz); ("value", VInt v)].
