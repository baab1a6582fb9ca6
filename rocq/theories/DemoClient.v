(** * Instructions built by the client library for the example wallet *)
From Verif Require Import BaseFacts SpecClient ClientFacts ClientAuth AuthProps.
From Verif Require Export DemoWallet.

(** the transaction consists of the instruction, or of two of which it is the second *)
Definition post (slot : Z) (x : ix) : ctx := mk_ctx slot 1 [x] 0 (ix_metas x) (ix_data x).
Definition post2 (slot : Z) (l : list ix) : ctx :=
  match l with [v; x] => mk_ctx slot 1 l 1 (ix_metas x) (ix_data x) | _ => call slot [] [] end.
Lemma post_sent slot x : sent_exactly (post slot x) x.
Proof. split; reflexivity. Qed.
Lemma wider_all l : Forall2 wider l l.
Proof. induction l as [|m l IH]; constructor; [split; [reflexivity|split; intro Q; exact Q]|exact IH]. Qed.
Lemma exact_sent cx x : sent_exactly cx x -> sent cx x.
Proof. intros [D M]. split; [exact D|]. rewrite M. apply wider_all. Qed.
Lemma post2_sent slot v x : sent_exactly (post2 slot [v; x]) x.
Proof. split; reflexivity. Qed.

(** the wallet pays [n] to [k] *)
Definition pay_ix (k : key) (n : Z) : ix := mk_ix SYSTEM [sw WALLET; rw k] (sys_pay n).

(** role 0 adds a role, role 3 opens a session for key 50, whose key then signs *)
Definition x_add : ix := add_ed SWIG (K 10) (K 10) 0 1 (K 40) [p_sol 5].
Definition x_open : ix := session_ed SWIG (K 10) (K 12) 3 (K 50) 50.
Definition x_pay : ix := sign_ed SWIG WALLET (K 50) (pay_ix (K 40) 5) 3 [].
(** role 2: secp256k1 *)
Definition k1_sign (d : bytes) : bytes := toy_sig k1_x d ++ [27].
Definition x_k1 : ix := sign_k1 toy k1_sign 20 1 SWIG WALLET (pay_ix (K 40) 5) 2 [].
(** role 4: secp256r1 *)
Definition r1_sign (d : bytes) : bytes := zeros 64.
Definition l_r1 : list ix := claimer_r1 toy r1_sign r1_key 20 1 SWIG (K 10) 4 (K 70).
(** role 5: program execution *)
Definition pre5 : ix := mk_ix (K 30) [ro SWIG; ro WALLET] [7; 7; 7; 8].
Definition l_exec : list ix := sign_exec SWIG WALLET (K 10) pre5 (pay_ix (K 40) 5) 5 None.

Lemma le_then_zero l : le (l ++ [0]) = le l.
Proof. induction l as [|b l IH]; cbn [le app]; [reflexivity|]. rewrite IH. reflexivity. Qed.
Lemma k1_signs_toy m : k1_signs toy ([2] ++ k1_x) (keccak toy m) (k1_sign (keccak toy m)).
Proof.
  destruct (toy_hashes m) as (_ & _ & L & B). set (d := keccak toy m) in *. clearbody d.
  exists (toy_sig k1_x d), 27, (k1_x ++ zeros 32). split; [reflexivity|].
  assert (Ls : length (sub 1 31 d) = 31%nat) by (apply sub_length; lia).
  assert (Bs : all_bytes (sub 1 31 d)) by (apply all_bytes_sub; exact B).
  split; [unfold toy_sig; rewrite !app_length, Ls; reflexivity|]. split; [|split; [|reflexivity]].
  - unfold canonical, big, toy_sig. change (firstn 32 (k1_x ++ [0] ++ sub 1 31 d)) with k1_x.
    split; [apply Z.ltb_lt; calc|].
    replace (sub 32 32 (k1_x ++ [0] ++ sub 1 31 d)) with (0 :: sub 1 31 d).
    + cbn [rev]. rewrite le_then_zero.
      pose proof (le_bound (rev (sub 1 31 d))) as Q. rewrite rev_length, Ls in Q.
      assert (all_bytes (rev (sub 1 31 d))) as Rb by (apply Forall_rev; exact Bs). specialize (Q Rb).
      change (curve_order / 2) with 57896044618658097711785492504343953926418782139537452191302581570759080747168.
      change (256 ^ Z.of_nat 31) with 452312848583266388373324160190187140051835877600158453279131187530910662656 in *. lia.
    + change (sub 32 32 (k1_x ++ [0] ++ sub 1 31 d)) with (0 :: firstn 31 (sub 1 31 d)). f_equal. rewrite firstn_all2; [reflexivity|lia].
  - cbn [recover toy]. unfold toy_recover.
    change (sub 32 32 (toy_sig k1_x d)) with (0 :: firstn 31 (sub 1 31 d)). rewrite (firstn_all2 (sub 1 31 d)) by lia.
    rewrite beq_refl. reflexivity.
Qed.

Definition agreeb (free : list key) (l : list meta) : bool :=
  forallb (fun m => forallb (fun m' => negb (beq (m_key m) (m_key m'))
    || ((negb (m_writable m) || m_writable m') && (negb (m_signer m) || existsb (beq (m_key m)) free || m_signer m'))) l) l.
Lemma agreeb_ok free l : agreeb free l = true -> agree free l.
Proof.
  unfold agreeb. intros H m m' I I' Q. rewrite forallb_forall in H. specialize (H m I).
  rewrite forallb_forall in H. specialize (H m' I'). rewrite Q, beq_refl in H. cbn [negb orb] in H.
  apply andb_prop in H as [A B]. split; intro T; rewrite T in *; [destruct (m_writable m'); [reflexivity|discriminate A]|].
  cbn [negb orb] in B. apply orb_prop in B as [B|B]; [left|right; exact B].
  apply existsb_exists in B as (k & J & B). apply beq_eq in B. rewrite Q, B. exact J.
Qed.

(** the addresses of the V1 sub-accounts of roles 4 and 6 *)
Definition SUB4 : key := Eval vm_compute in toy_pda (seeds_sub WID 4 255).
Definition SUB6 : key := Eval vm_compute in toy_pda (seeds_sub WID 6 255).
Lemma k1_sign_length m : length (k1_sign (keccak toy m)) = 65%nat.
Proof.
  destruct (toy_hashes m) as (_ & _ & L & _). unfold k1_sign, toy_sig. rewrite !app_length, (sub_length 1 31) by lia. reflexivity.
Qed.
