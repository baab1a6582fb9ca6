(** * Examples for payments of the configuration account *)
From Verif Require Import SpecConfig.
From Verif Require Export DemoRent SpecFlow.

(** Role 1 may only manage roles.  The configuration account holds 900000 lamports
    above its rent.  Role 1 then removes its SOL limit from role 2 and names
    account 99, which does not sign, as the payer *)
Definition e_flow : list event :=
  [Call (c_update2 1 0 (enc_actions 0 [p_manage])); Call (c_plus2 (K 12) [p_manage; p_sol 5]); pays SWIG2 900000].
Definition by1 (data : bytes) : ctx := call 9 [rw SWIG2; rw (K 99); ro SYSTEM; sg (K 11)] data.
Definition c_trim : ctx := by1 (d_update 1 2 2 [1] ++ ed 3).
Definition c_drop : ctx := by1 (d_remove 1 2 ++ ed 3).
Definition s_flow : config := mk_config 255 ID2 3 255 (zeros 3) 0
  [m0; m1 [p_manage]; mk_role 2 1 (zeros 2) (K 12) [p_manage; p_sol 5]] None.
Lemma flow_cfg : is_cfg (den e_flow SWIG2) s_flow.
Proof. apply cfgb_ok. vm_compute. reflexivity. Qed.
Lemma flow_room : room 1 s_flow.
Proof. split; vm_compute; reflexivity. Qed.
