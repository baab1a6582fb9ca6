(** * Example worlds for the SDK *)
From Verif Require Export DemoAvail DemoClient DemoWorks DemoSign SdkBatch.

(** role 1 of the example wallet gives role 6, with key 13, the permissions [gs] *)
Definition x_lend (gs : list grant) : ix := sdk_add_ed SWIG (K 10) (K 11) 1 1 (K 13) gs.
Definition lent (gs : list grant) : world := run toy home [Call (post 6 (x_lend gs))].
Definition s_lent (gs : list grant) : config := s_hired (to_client_actions gs).
Definition gs6 : list grant :=
  [GSol 500 (Some (mk_renewal 100 0 0)); GToken (K 70) 9 None; GToken (K 71) 8 None; GSub (zeros 32); GProgram SYSTEM; GV2Sign 3].
(** role 6 pays [n] lamports to account 40 *)
Definition pay6 (n : Z) : ctx := post 30 (sign_ed SWIG WALLET (K 13) (pay_ix (K 40) n) 6 []).
(** what is listed of [gs6], before and after the limits on tokens are taken away *)
Definition given6 : list grant :=
  [GSol 500 (Some (mk_renewal 100 0 500)); GToken (K 70) 9 None; GToken (K 71) 8 None; GProgram SYSTEM; GSub (zeros 32); GV2Sign 3].
Definition left6 : list grant := [GSol 500 (Some (mk_renewal 100 0 500)); GProgram SYSTEM; GSub (zeros 32); GV2Sign 3].
Definition x_take : ix := update_ed SWIG (K 10) (K 11) 1 6 (RemoveByType [5]).
Definition renewing : list grant := [GSol 500 (Some (mk_renewal 1000 0 0)); GProgram SYSTEM].
Definition x_fire : ix := remove_ed SWIG (K 10) (K 11) 1 3.
(** another role with key 11 *)
Definition l_twin := [p_sol 5].
Definition r_twin := mk_role 6 1 (zeros 2) (K 11) l_twin.
Definition twins : world := run toy home [Call (c_plus 1 (K 11) l_twin)].
Definition s_twins : config := mk_config 255 WID 7 254 (zeros 3) 0 [r0; r1; r2; r3; r4; r5; r_twin] None.
(** two payments by role 2, built at once *)
Definition both : list ix := sdk_sign_k1 toy k1_sign 20 0 SWIG WALLET 2 [] [pay_ix (K 40) 5; pay_ix (K 40) 6].
Definition first_of : ix := nth 0 both x_pay.
Definition second_of : ix := nth 1 both x_pay.
(** role 6 has a secp256k1 key and all permissions *)
Definition chief : ctx := c_plus 3 ([2] ++ k1_x) [p_all].
Definition r_chief (n : Z) := mk_role 6 3 (zeros 2) ([2] ++ k1_x ++ zeros 3 ++ le_enc 4 n) [p_all].
Definition ruled (es : list event) : world := run toy home (Call chief :: es).
Definition s_ruled : config := mk_config 255 WID 7 254 (zeros 3) 0 [r0; r1; r2; r3; r4; r5; r_chief 0] None.
Definition x_hire : ix := add_k1 toy k1_sign 20 (next_odometer 0) SWIG (K 10) 6 1 (K 40) [p_sol 5].
Definition o_hire : order := AddRole 1 (K 40) (enc_actions 0 [p_sol 5]).
Definition x_after : ix := sign_k1 toy k1_sign 20 (next_odometer (odometer_after o_hire 0)) SWIG WALLET (pay_ix (K 40) 5) 6 [].
Lemma grants6_ok : Forall grantable gs6.
Proof.
  unfold gs6. repeat (apply Forall_cons; [split; [|exact Logic.I || reflexivity]; cbn [grant_ok renewal_ok rn_window]|]); [..|apply Forall_nil].
  all: repeat match goal with
  | |- _ /\ _ => split
  | |- wf_key _ => apply keyb_ok; calc
  | |- is_u64 _ => split; [discriminate|reflexivity]
  | |- is_u32 _ => split; [discriminate|reflexivity]
  | |- True => exact Logic.I
  end.
Qed.
Lemma in_time_20 : in_time 30 20.
Proof. unfold in_time. lia. Qed.
