(** * The 65536th role

    [wiped], [smooth] are in SpecWrap.v, the other words in SpecAvail.v. *)
From Verif Require Import BaseFacts SpecConfig Avail2 ConfigProps Wrap DemoWrap.

(** ** C53: what an owner relies on, namely that adding an authority leaves the others
    alone (C02 for wallets with room).  The number of roles is stored in 16 bits and
    wraps: in every wallet with 65535 roles, AddAuthority succeeds under the same
    conditions as in C64 and erases every role.  The configuration that is left has
    no roles, its account is otherwise filled with zeros. *)
Theorem C53_add_to_full_erases : forall E cx w s r ty c l i,
  wf_ctx cx -> is_cfg (w (acct cx 0)) s -> admin_accounts cx w s ->
  In r (s_roles s) -> manager r -> shows cx r i -> c_data cx = add_data (r_id r) ty c l i ->
  s_counter s + 1 < U32 -> Z.of_nat (length (s_roles s)) = 65535 ->
  credential_ok ty c -> wf_actions l -> Forall unspent l ->
  let nr := new_role s ty c l in let size := length (enc_config (add_to s nr)) in
  let had := a_lamports (w (acct cx 0)) in
  Z.of_nat (role_len nr) <= 10240 -> Z.of_nat size <= 10485760 -> 0 <= had -> rent E size < U64 ->
  (had < rent E size -> can_pay w (acct cx 1) (rent E size - had)) ->
  exists w', succeeds E cx w w' /\ exists n, a_data (w' (acct cx 0)) = enc_config (wiped s) ++ zeros n.
Proof. exact full_erases. Qed.
Print Assumptions C53_add_to_full_erases.

(** Such a wallet can be built: by one CreateV1 and 65534 AddAuthority, all of which
    succeed.  One more, by a role with All, erases all 65535 roles.  (Whether the
    compute budget of a transaction allows the last steps is not modelled.) *)
Theorem C53_others_stay_refuted :
  exists E w0 es w cx w' k s r n, foreign_ok E /\ fresh w0 /\ smooth E w0 es /\ w = run E w0 es
  /\ is_cfg (w k) s /\ Z.of_nat (length (s_roles s)) = 65535
  /\ tag (c_data cx) = 1 /\ acct cx 0 = k /\ find_role (actor_of (c_data cx)) s = Some r /\ holds 7 r
  /\ succeeds E cx w w' /\ a_data (w' k) = enc_config (wiped s) ++ zeros n.
Proof. exact overfull. Qed.
Print Assumptions C53_others_stay_refuted.

(** the hypotheses of the first theorem, met in that wallet *)
Example C53_case : exists w s, is_cfg (w (acct c_many 0)) s /\ wf_ctx c_many /\ admin_accounts c_many w s
  /\ In m0 (s_roles s) /\ manager m0 /\ shows c_many m0 1 /\ c_data c_many = add_data (r_id m0) 1 (K 11) [p_all] 1
  /\ s_counter s + 1 < U32 /\ Z.of_nat (length (s_roles s)) = 65535
  /\ credential_ok 1 (K 11) /\ wf_actions [p_all] /\ Forall unspent [p_all]
  /\ let nr := new_role s 1 (K 11) [p_all] in let size := length (enc_config (add_to s nr)) in
     Z.of_nat (role_len nr) <= 10240 /\ Z.of_nat size <= 10485760
     /\ 0 <= a_lamports (w (acct c_many 0)) /\ rent toy size <= a_lamports (w (acct c_many 0)) /\ rent toy size < U64.
Proof. exact full_case. Qed.
