(** * Editing configurations: the byte edits agree with [SpecConfig]. *)
From Verif Require Import BaseFacts Actions Limits Authority Roles SpecConfig LimitsFacts ConfigFacts.

(** ** Header *)
Section Header.
  Variable s : config.
  Hypothesis Hid : length (s_id s) = 32%nat.
  Hypothesis Hpad : length (s_pad s) = 3%nat.

  Lemma enc_header_length : length (enc_header s) = HDR.
  Proof. unfold enc_header. rewrite !app_length, !le_enc_length, Hid, Hpad. reflexivity. Qed.
  Lemma hf_disc rest : h_disc (enc_header s ++ rest) = 1.
  Proof. reflexivity. Qed.
  Lemma hf_bump rest : h_bump (enc_header s ++ rest) = s_bump s.
  Proof. reflexivity. Qed.
  Lemma hf_id rest : h_id (enc_header s ++ rest) = s_id s.
  Proof.
    unfold h_id, enc_header. rewrite <- !app_assoc. apply sub_app_exact; [reflexivity|exact Hid].
  Qed.
  Lemma hf_sub_roles rest : sub 34 2 (enc_header s ++ rest) = le_enc 2 (Z.of_nat (length (s_roles s))).
  Proof.
    unfold enc_header. rewrite <- !app_assoc. rewrite (app_assoc [1; s_bump s]).
    apply sub_app_exact; [rewrite app_length, Hid; reflexivity|apply le_enc_length].
  Qed.
  Lemma hf_sub_counter rest : sub 36 4 (enc_header s ++ rest) = le_enc 4 (s_counter s).
  Proof.
    unfold enc_header. rewrite <- !app_assoc. rewrite (app_assoc [1; s_bump s]).
    rewrite (app_assoc ([1; s_bump s] ++ s_id s)).
    apply sub_app_exact; [rewrite !app_length, le_enc_length, Hid; reflexivity|apply le_enc_length].
  Qed.
  Lemma hf_sub_wbump rest : sub 40 1 (enc_header s ++ rest) = [s_wbump s].
  Proof.
    unfold enc_header. rewrite <- !app_assoc. rewrite (app_assoc [1; s_bump s]).
    rewrite (app_assoc ([1; s_bump s] ++ s_id s)), (app_assoc (([1; s_bump s] ++ s_id s) ++ _)).
    apply sub_app_exact; [rewrite !app_length, !le_enc_length, Hid; reflexivity|reflexivity].
  Qed.
  Lemma hf_pad rest : h_pad (enc_header s ++ rest) = s_pad s.
  Proof.
    unfold h_pad, enc_header. rewrite <- !app_assoc. rewrite (app_assoc [1; s_bump s]).
    rewrite (app_assoc ([1; s_bump s] ++ s_id s)), (app_assoc (([1; s_bump s] ++ s_id s) ++ _)).
    rewrite (app_assoc _ [s_wbump s]).
    apply sub_app_exact; [rewrite !app_length, !le_enc_length, Hid; reflexivity|exact Hpad].
  Qed.
  Lemma hf_sub_subctr rest : sub 44 4 (enc_header s ++ rest) = le_enc 4 (s_subctr s).
  Proof.
    unfold enc_header. rewrite <- !app_assoc. rewrite (app_assoc [1; s_bump s]).
    rewrite (app_assoc ([1; s_bump s] ++ s_id s)), (app_assoc (([1; s_bump s] ++ s_id s) ++ _)).
    rewrite (app_assoc _ [s_wbump s]), (app_assoc _ (s_pad s)).
    apply sub_app_exact; [rewrite !app_length, !le_enc_length, Hid, Hpad; reflexivity|apply le_enc_length].
  Qed.
  Lemma hf_roles rest : Z.of_nat (length (s_roles s)) < 65536 ->
    h_roles (enc_header s ++ rest) = Z.of_nat (length (s_roles s)).
  Proof. intros H. unfold h_roles, u16_at. rewrite hf_sub_roles. apply le2. unfold is_u16, U16. lia. Qed.
  Lemma hf_counter rest : is_u32 (s_counter s) -> h_counter (enc_header s ++ rest) = s_counter s.
  Proof. intros H. unfold h_counter, u32_at. rewrite hf_sub_counter. apply le4. exact H. Qed.
  Lemma hf_subctr rest : is_u32 (s_subctr s) -> h_subctr (enc_header s ++ rest) = s_subctr s.
  Proof. intros H. unfold h_subctr, u32_at. rewrite hf_sub_subctr. apply le4. exact H. Qed.
  Lemma hf_wbump rest : h_wbump (enc_header s ++ rest) = s_wbump s.
  Proof.
    unfold h_wbump, byte_at.
    pose proof (hf_sub_wbump rest) as E. unfold sub in E.
    assert (G : forall (l : bytes) x, firstn 1 (skipn 40 l) = [x] -> nth 40 l 0 = x).
    { intros l x. clear. generalize 40%nat as n. intros n; revert l; induction n as [|n IH]; intros l H.
      - destruct l; cbn in H; inv H; reflexivity.
      - destruct l; cbn in H; [discriminate|apply IH; exact H]. }
    apply G. exact E.
  Qed.
  (** the two counters together, as [add_role] writes them *)
  Lemma header_set_counts n c :
    splice 34 (le_enc 2 n ++ le_enc 4 c) (enc_header s)
    = [1; s_bump s] ++ s_id s ++ le_enc 2 n ++ le_enc 4 c ++ [s_wbump s] ++ s_pad s ++ le_enc 4 (s_subctr s).
  Proof.
    unfold enc_header.
    rewrite (app_assoc [1; s_bump s]).
    rewrite (app_assoc (le_enc 2 (Z.of_nat (length (s_roles s))))).
    rewrite splice_app_exact; [|rewrite app_length, Hid; reflexivity|rewrite !app_length, !le_enc_length; reflexivity].
    rewrite <- !app_assoc. reflexivity.
  Qed.
  Lemma header_set_roles n :
    splice 34 (le_enc 2 n) (enc_header s)
    = [1; s_bump s] ++ s_id s ++ le_enc 2 n ++ le_enc 4 (s_counter s) ++ [s_wbump s] ++ s_pad s ++ le_enc 4 (s_subctr s).
  Proof.
    unfold enc_header. rewrite (app_assoc [1; s_bump s]).
    rewrite splice_app_exact; [|rewrite app_length, Hid; reflexivity|rewrite !le_enc_length; reflexivity].
    rewrite <- !app_assoc. reflexivity.
  Qed.
  Lemma header_set_subctr n :
    splice 44 (le_enc 4 n) (enc_header s)
    = [1; s_bump s] ++ s_id s ++ le_enc 2 (Z.of_nat (length (s_roles s))) ++ le_enc 4 (s_counter s) ++ [s_wbump s] ++ s_pad s ++ le_enc 4 n.
  Proof.
    unfold enc_header. rewrite (app_assoc [1; s_bump s]).
    rewrite (app_assoc ([1; s_bump s] ++ s_id s)), (app_assoc (([1; s_bump s] ++ s_id s) ++ _)).
    rewrite (app_assoc _ [s_wbump s]), (app_assoc _ (s_pad s)).
    rewrite <- (app_nil_r (le_enc 4 (s_subctr s))).
    rewrite splice_app_exact; [|rewrite !app_length, !le_enc_length, Hid, Hpad; reflexivity|rewrite !le_enc_length; reflexivity].
    rewrite app_nil_r, <- !app_assoc. reflexivity.
  Qed.
End Header.

(** ** Splitting *)
Lemma enc_config_length s : wf_config s ->
  length (enc_config s) = (HDR + roles_size (s_roles s) + length (enc_claimer (s_claimer s)))%nat.
Proof.
  intros (W1 & (W2 & W2') & W3 & W4 & W5 & W6 & W7 & W8 & _). unfold enc_config.
  rewrite !app_length, enc_header_length, enc_roles_length by assumption. lia.
Qed.
Lemma wf_roles_small s : wf_config s -> Z.of_nat (HDR + roles_size (s_roles s)) < U32.
Proof.
  intros H. pose proof (enc_config_length s H) as L.
  destruct H as (_ & _ & _ & _ & _ & _ & _ & _ & _ & _ & _ & W & _). unfold U32. lia.
Qed.
Lemma roles_len_enc s rest : wf_config s ->
  roles_len (enc_header s ++ enc_roles 0 (s_roles s) ++ rest) = Ok (roles_size (s_roles s)).
Proof.
  intros H. pose proof (wf_roles_small s H) as Hsm.
  destruct H as (W1 & (W2 & W2') & W3 & W4 & W5 & W6 & W7 & W8 & W9 & W10 & W11 & W12 & W13).
  unfold roles_len. rewrite app_length, enc_header_length by assumption.
  replace (HDR <=? _)%nat with true by (unfold HDR; lia). cbn [check bind].
  rewrite hf_roles, nat_of_nat by assumption.
  rewrite skipn_app_exact by (apply enc_header_length; assumption).
  apply roles_end_at; [assumption|apply roles_at_enc; assumption|lia].
Qed.
Lemma split_parts_gen s rest : wf_config s ->
  split_parts (enc_header s ++ enc_roles 0 (s_roles s) ++ rest)
  = Ok (enc_header s, enc_roles 0 (s_roles s), rest).
Proof.
  intros H. unfold split_parts. rewrite roles_len_enc by exact H. cbn [bind].
  destruct H as (W1 & (W2 & W2') & W3 & W4 & W5 & W6 & W7 & W8 & W9).
  pose proof (enc_header_length s W2 W5) as L1. pose proof (enc_roles_length 0 _ W8) as L2.
  f_equal. f_equal; [f_equal|].
  - apply firstn_app_exact; exact L1.
  - apply sub_app_exact; [exact L1|exact L2].
  - rewrite app_assoc. apply skipn_app_exact. rewrite app_length. lia.
Qed.
Lemma split_parts_enc s : wf_config s ->
  split_parts (enc_config s) = Ok (enc_header s, enc_roles 0 (s_roles s), enc_claimer (s_claimer s)).
Proof. intros H. apply (split_parts_gen s _ H). Qed.

Lemma read_strict_enc c : (forall k, c = Some k -> wf_key k) -> read_strict (enc_claimer c) = Ok c.
Proof.
  destruct c as [k|]; [|reflexivity]. intros H. destruct (H k eq_refl) as [L B].
  unfold read_strict, enc_claimer. cbn [app].
  replace (length (1 :: 1 :: 32 :: 0 :: 0 :: 0 :: 0 :: 0 :: k)%Z =? ENTRY_LEN)%nat with true
    by (cbn [length]; rewrite L; reflexivity).
  cbn [check bind].
  change (byte_at 0 (1 :: 1 :: 32 :: 0 :: 0 :: 0 :: 0 :: 0 :: k) =? 1) with true.
  change (u16_at 2 (1 :: 1 :: 32 :: 0 :: 0 :: 0 :: 0 :: 0 :: k) =? 32) with true.
  change (byte_at 1 (1 :: 1 :: 32 :: 0 :: 0 :: 0 :: 0 :: 0 :: k) =? 1) with true.
  change (beq (sub 4 4 (1 :: 1 :: 32 :: 0 :: 0 :: 0 :: 0 :: 0 :: k)) (zeros 4)) with true.
  cbn [check bind]. do 2 f_equal. unfold sub. cbn [skipn]. rewrite <- L. apply firstn_all.
Qed.
Lemma take_tail_enc c : (forall k, c = Some k -> wf_key k) -> take_tail (enc_claimer c) = Ok (enc_claimer c).
Proof. intros H. unfold take_tail. rewrite read_strict_enc by exact H. reflexivity. Qed.
Lemma claimer_entry_enc k : claimer_entry k = enc_claimer (Some k).
Proof. reflexivity. Qed.

(** ** Adding *)
Ltac lens := repeat first [rewrite splice_length | rewrite sub_length | rewrite zeros_length
                          | rewrite app_length | rewrite le_enc_length]; try lia.
Lemma compress_length k : (32 <= length k)%nat -> length (compress k) = 33%nat.
Proof. intros H. unfold compress. cbn [length]. rewrite sub_length by lia. reflexivity. Qed.

Lemma set_into_bytes_length ty create old auth :
  set_into_bytes ty create old = Ok auth -> authority_len ty = Some (length old) -> length auth = length old.
Proof.
  intros H L. pose proof (authority_len_bound _ _ L) as [_ B].
  assert (D : ty = 1 \/ ty = 2 \/ ty = 3 \/ ty = 4 \/ ty = 5 \/ ty = 6 \/ ty = 7 \/ ty = 8) by lia.
  destruct D as [-> | [-> | [-> | [-> | [-> | [-> | [-> | ->]]]]]]]; inv L;
    unfold set_into_bytes in H; cbn [Z.eqb Pos.eqb T_Ed25519 T_Ed25519Session T_Secp256k1 T_Secp256k1Session
      T_Secp256r1 T_Secp256r1Session T_ProgramExec T_ProgramExecSession] in H;
    peel H; repeat match goal with h : (_ =? _)%nat = true |- _ => apply Nat.eqb_eq in h end; inv H.
  - congruence.
  - lens.
  - assert (length v = 33%nat) as Lv.
    { destruct (length create =? 33)%nat eqn:E1; [inv B0; lia|].
      destruct (length create =? 64)%nat eqn:E2; inv B0. apply compress_length. lia. }
    lens.
  - match goal with |- context [if ?b then ?x else ?y] => set (pk := if b then x else y) end.
    assert (length pk = 33%nat) as Lv.
    { unfold pk. destruct (beq _ _); [apply sub_length; lia|apply compress_length; rewrite sub_length; lia]. }
    lens.
  - lens.
  - lens.
  - assert (nat_of (byte_at 32 create) <= 40)%nat by (unfold nat_of; lia). lens.
  - lens.
Qed.

Lemma compress_bytes k : all_bytes k -> all_bytes (compress k).
Proof.
  intros H. unfold compress. constructor; [|apply all_bytes_sub, H].
  destruct (Z.even _); unfold is_byte; lia.
Qed.
Lemma set_into_bytes_bytes ty create old auth :
  set_into_bytes ty create old = Ok auth -> all_bytes create -> all_bytes old -> all_bytes auth.
Proof.
  intros H Hc Ho. unfold set_into_bytes in H.
  repeat match type of H with (if ?b then _ else _) = _ => destruct b end; try discriminate; peel H; inv H;
    auto 8 using all_bytes_splice, all_bytes_sub, zeros_bytes.
  - repeat apply all_bytes_splice; auto using zeros_bytes.
    destruct (length create =? 33)%nat; [inv B; assumption|].
    destruct (length create =? 64)%nat; inv B. apply compress_bytes; assumption.
  - repeat apply all_bytes_splice; auto using zeros_bytes, all_bytes_sub.
    destruct (beq _ _); auto using compress_bytes, all_bytes_sub.
Qed.

Lemma walk_end_at o buf l : Forall wf_role l -> roles_at o buf l -> Z.of_nat (o + roles_size l) < U32 ->
  walk_end (length l) buf o = Ok (o + roles_size l)%nat.
Proof.
  intros Hl; revert o; induction Hl as [|r t Hr Ht IH]; intros o Hat Hsm; cbn in *.
  - f_equal; lia.
  - destruct Hat as [H1 H2]. pose proof (role_len_ge r). pose proof (role_at_le _ _ _ H1).
    replace (o + POS <=? length buf)%nat with true by (unfold POS; lia). cbn [guard bind].
    rewrite (fld_bound o buf r) by (try assumption; lia).
    rewrite IH by (try assumption; lia). f_equal; lia.
Qed.

Lemma copy_actions_parses n acts ac start cur buf out l :
  parses (skipn ac acts) l -> length l = n -> (start <= cur)%nat -> (ac <= length acts)%nat ->
  copy_actions n acts ac start cur buf = Ok out ->
  (cur + acts_len l <= length buf)%nat /\ out = splice cur (enc_actions (cur - start) l) buf
  \/ (l = [] /\ out = buf).
Proof.
  revert ac cur buf l; induction n as [|n IH]; intros ac cur buf l Hp Hn Hs Ha H; cbn in H.
  - inv H. destruct l; [|discriminate]. right. auto.
  - destruct l as [|a t]; [discriminate|]. inv Hn. left.
    destruct (parses_fields _ _ Hp _ _ eq_refl) as (F1 & F2 & F3 & F4 & F5 & F6 & F7).
    rewrite <- hdr_ty_skipn in F1. rewrite <- hdr_len_skipn in F2. rewrite <- sub_skipn in F3.
    rewrite skipn_skipn', Nat.add_assoc in F4. rewrite skipn_length in F5.
    bind_inv H. apply slice_ok in B as [B1 ->]. bind_inv K. apply slice_ok in B as [B2 ->].
    rewrite F2 in *. rewrite F3 in *. bind_inv K0. bind_inv K. bind_inv K0. bind_inv K.
    apply guard_ok in B4. apply Nat.leb_le in B4. clear v1 v2 B B0 B3 v0.
    set (n := length (ac_data a)) in *.
    assert (E : splice (cur + 8) (ac_data a)
                  (splice (cur + 4) (le_enc 4 (Z.of_nat (cur - start + 8 + n))) (splice cur (sub ac 8 acts) buf))
                = splice cur (enc_action (cur - start) a) buf).
    { assert (E8 : sub ac 8 acts = (le_enc 2 (ac_ty a) ++ le_enc 2 (Z.of_nat n)) ++ sub (ac + 4) 4 acts).
      { rewrite <- F7. rewrite (sub_skipn ac 4). unfold sub.
        change 8%nat with (4 + 4)%nat. rewrite <- (firstn_skipn 4 (skipn ac acts)) at 1.
        rewrite firstn_app, firstn_firstn, firstn_length, skipn_length.
        replace (Nat.min (4 + 4) 4) with 4%nat by reflexivity.
        replace (4 + 4 - Nat.min 4 (length acts - ac))%nat with 4%nat by lia. reflexivity. }
      rewrite E8.
      replace (cur + 4)%nat with (cur + length (le_enc 2 (ac_ty a) ++ le_enc 2 (Z.of_nat n)))%nat
        by (rewrite app_length, !le_enc_length; reflexivity).
      rewrite splice_over.
      - replace (cur + 8)%nat with (cur + length ((le_enc 2 (ac_ty a) ++ le_enc 2 (Z.of_nat n)) ++
                                                  le_enc 4 (Z.of_nat (cur - start + 8 + n))))%nat
          by (rewrite !app_length, !le_enc_length; reflexivity).
        rewrite splice_adjacent by (rewrite !app_length, !le_enc_length; fold n; lia).
        unfold enc_action. fold n. rewrite <- !app_assoc. reflexivity.
      - rewrite sub_length, le_enc_length by lia. reflexivity.
      - rewrite !app_length, !le_enc_length, sub_length; lia. }
    rewrite E in K0. cbn [acts_len enc_actions]. fold n.
    apply IH with (l := t) in K0; [|exact F4|reflexivity|lia|lia].
    pose proof (enc_action_length (cur - start) a) as La. fold n in La.
    assert (Lb : length (splice cur (enc_action (cur - start) a) buf) = length buf)
      by (apply splice_length; lia).
    destruct K0 as [[K1 K2]|[-> K2]].
    + rewrite Lb in K1. split; [lia|]. rewrite K2.
      replace (cur + 8 + n)%nat with (cur + length (enc_action (cur - start) a))%nat by lia.
      rewrite splice_adjacent by (rewrite enc_actions_length; lia).
      do 2 f_equal. f_equal. lia.
    + cbn [acts_len enc_actions]. rewrite app_nil_r. split; [lia|exact K2].
Qed.

Lemma cut (d : bytes) n : (n <= length d)%nat -> exists a b, d = a ++ b /\ length a = n.
Proof. intros H. exists (firstn n d), (skipn n d). rewrite firstn_skipn, firstn_length. split; [reflexivity|lia]. Qed.

(** the role a successful [add_role] appends *)
Lemma add_role_enc s slack aty adata acts h' b' :
  Forall wf_role (s_roles s) -> length (s_id s) = 32%nat -> length (s_pad s) = 3%nat ->
  is_u32 (s_counter s) -> Z.of_nat (length (s_roles s)) < 65536 ->
  all_bytes slack -> all_bytes adata -> all_bytes acts ->
  Z.of_nat (roles_size (s_roles s) + length slack) < U32 ->
  add_role (enc_header s) (enc_roles 0 (s_roles s) ++ slack) aty adata acts = Ok (h', b') ->
  exists auth lacts,
    let r := mk_role (s_counter s) aty (sub 6 2 slack) auth lacts in
    parses acts lacts /\ wf_role r /\ (role_len r <= length slack)%nat
    /\ set_into_bytes aty adata (sub 16 (length auth) slack) = Ok auth
    /\ h' = splice 34 (le_enc 2 ((Z.of_nat (length (s_roles s)) + 1) mod U16)
                        ++ le_enc 4 ((s_counter s + 1) mod U32)) (enc_header s)
    /\ b' = enc_roles 0 (s_roles s ++ [r]) ++ skipn (role_len r) slack.
Proof.
  intros Wr Wid Wpad Wc Wn Hsl Had Hac Hsm H. unfold add_role in H.
  bind_inv H. rename v into n. bind_inv K. destruct v. bind_inv K0. bind_inv K.
  apply ok_or_ok in B2. rename v0 into alen. bind_inv K0. rename v0 into old. apply slice_ok in B3 as [B3 ->].
  bind_inv K. rename v0 into auth. bind_inv K0. rename v0 into buf4.
  assert (Hr : h_roles (enc_header s) = Z.of_nat (length (s_roles s)))
    by (rewrite <- (app_nil_r (enc_header s)); apply hf_roles; assumption).
  assert (Hcn : h_counter (enc_header s) = s_counter s)
    by (rewrite <- (app_nil_r (enc_header s)); apply hf_counter; assumption).
  rewrite ?Hr, ?Hcn in *. apply (f_equal (fun x => match x with Ok p => p | _ => (h', b') end)) in K.
  apply pair_equal_spec in K as [<- <-].
  rewrite nat_of_nat in B1.
  rewrite (walk_end_at 0) in B1 by (try assumption; try (apply roles_at_enc; assumption); lia).
  cbn in B1. inv B1. pose proof (enc_roles_length 0 _ Wr) as HL.
  remember (s_roles s) as l eqn:El. set (cur := roles_size l) in *.
  apply num_actions_parses in B as (lacts & P1 & P2 & P3 & P4); [|exact Hac].
  pose proof (reject_dup_nodup _ _ P1 B0) as Hnd.
  pose proof (parses_wf _ _ Hac P1) as Pwf. pose proof (parses_length _ _ P1) as Plen.
  rewrite app_length, HL in B3. unfold POS in *.
  rewrite sub_app_r in B4 by lia. rewrite HL in B4.
  replace (cur + 16 - cur)%nat with 16%nat in B4 by lia.
  pose proof (set_into_bytes_length _ _ _ _ B4) as La. rewrite sub_length in La by lia. specialize (La B2).
  pose proof (set_into_bytes_bytes _ _ _ _ B4 Had (all_bytes_sub _ _ _ Hsl)) as Lb.
  exists auth, lacts. cbv zeta.
  set (r := {| r_id := s_counter s; r_aty := aty; r_pad := sub 6 2 slack; r_auth := auth; r_acts := lacts |}).
  assert (Hwr : wf_role r).
  { unfold wf_role, r; cbn. split; [exact Wc|]. split; [rewrite La; exact B2|]. split; [exact Lb|].
    split; [apply sub_length; lia|]. split; [apply all_bytes_sub, Hsl|]. split; [exact P3|split; assumption]. }
  split; [exact P1|split; [exact Hwr|]].
  (* the copy *)
  set (buf3 := splice (cur + 8) _ _) in B5.
  assert (Hb3 : length buf3 = (cur + length slack)%nat).
  { unfold buf3. rewrite splice_length; rewrite splice_length; rewrite ?splice_length;
      rewrite ?app_length, ?le_enc_length, ?HL; lia. }
  rewrite P2, nat_of_nat in B5.
  apply copy_actions_parses with (l := lacts) in B5; [|exact P1|reflexivity|lia|lia].
  destruct B5 as [[K1 K2]|[K1 _]]; [|rewrite K1 in P3; cbn in P3; lia].
  rewrite Hb3 in K1. assert (Hfit : (role_len r <= length slack)%nat) by (unfold role_len, r; cbn [r_auth r_acts]; lia).
  split; [exact Hfit|]. split; [rewrite La; exact B4|].
  split; [reflexivity|].
  rewrite K2, Nat.sub_diag. rewrite enc_roles_app. cbn [enc_roles Nat.add]. fold cur. rewrite app_nil_r.
  (* assemble *)
  assert (E3 : splice (cur + 16 + alen) (enc_actions 0 lacts) buf3
               = enc_roles 0 l ++ enc_role cur r ++ skipn (role_len r) slack).
  { assert (Lac : length (enc_actions 0 lacts) = acts_len lacts) by apply enc_actions_length.
    unfold buf3. clear buf3 Hb3 K2.
    set (H6 := le_enc 2 aty ++ le_enc 2 (Z.of_nat alen) ++ le_enc 2 n) in *.
    assert (L6 : length H6 = 6%nat) by (unfold H6; rewrite !app_length, !le_enc_length; reflexivity).
    set (H8 := le_enc 4 _ ++ le_enc 4 _) in *.
    assert (L8 : length H8 = 8%nat) by (unfold H8; rewrite app_length, !le_enc_length; reflexivity).
    assert (Hrl : role_len r = (16 + alen + acts_len lacts)%nat) by (unfold role_len, r; cbn [r_auth r_acts]; lia).
    destruct (cut slack 6) as (A6 & s1 & C1 & C1'); [lia|].
    destruct (cut s1 2) as (P2' & s2 & C2 & C2'); [subst slack; rewrite app_length in *; lia|].
    destruct (cut s2 8) as (A8 & s3 & C3 & C3'); [subst slack s1; rewrite !app_length in *; lia|].
    destruct (cut s3 alen) as (AU & s4 & C4 & C4'); [subst slack s1 s2; rewrite !app_length in *; lia|].
    destruct (cut s4 (acts_len lacts)) as (AC & s5 & C5 & C5'); [subst slack s1 s2 s3; rewrite !app_length in *; lia|].
    subst s4 s3 s2 s1.
    assert (HP : sub 6 2 slack = P2') by (rewrite C1; apply sub_app_exact; lia).
    assert (HR : skipn (role_len r) slack = s5).
    { rewrite C1, !app_assoc. apply skipn_app_exact. rewrite !app_length. lia. }
    rewrite HR. rewrite C1. set (F := enc_roles 0 l) in *.
    replace (splice (cur + 16) auth (F ++ A6 ++ P2' ++ A8 ++ AU ++ AC ++ s5))
      with (F ++ A6 ++ P2' ++ A8 ++ auth ++ AC ++ s5).
    2:{ pose proof (splice_app_exact (cur + 16) (F ++ A6 ++ P2' ++ A8) AU (AC ++ s5) auth) as E.
        rewrite <- !app_assoc in E. symmetry. apply E; rewrite ?app_length; lia. }
    rewrite splice_app_exact by lia.
    replace (splice (cur + 8) H8 (F ++ H6 ++ P2' ++ A8 ++ auth ++ AC ++ s5))
      with (F ++ H6 ++ P2' ++ H8 ++ auth ++ AC ++ s5).
    2:{ pose proof (splice_app_exact (cur + 8) (F ++ H6 ++ P2') A8 (auth ++ AC ++ s5) H8) as E.
        rewrite <- !app_assoc in E. symmetry. apply E; rewrite ?app_length; lia. }
    pose proof (splice_app_exact (cur + 16 + alen) (F ++ H6 ++ P2' ++ H8 ++ auth) AC s5 (enc_actions 0 lacts)) as E.
    rewrite <- !app_assoc in E. rewrite E by (rewrite ?app_length; lia). clear E.
    unfold enc_role. subst H6 H8. cbn [r_aty r_auth r_acts r_pad r_id r] in *. unfold r in *. cbn [r_aty r_auth r_acts r_pad r_id].
    rewrite Hrl, HP, La, P2, Plen. rewrite <- !app_assoc.
    replace (cur + (16 + alen + acts_len lacts))%nat with (cur + 16 + alen + acts_len lacts)%nat by lia.
    reflexivity. }
  rewrite E3, <- ?app_assoc. reflexivity.
Qed.
