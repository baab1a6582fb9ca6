(** * Examples for rent *)
From Verif Require Import SpecConfig Rent3.
From Verif Require Export DemoLife SpecRent.

Lemma toy_rent_grows : rent_grows toy.
Proof. intros m n L. cbn [rent toy]. lia. Qed.
(** An update frees room and pays out the rent for it; a sub-account, a claimer and
    the closing of the wallet follow *)
Definition e_rent : list event :=
  [Call (c_update2 1 0 (enc_actions 0 [p_v2create])); Call (c_sub2 0 255); Call (c_claim2 (K 40)); Call (c_close2 (K 40))].
(** size of the configuration account and what it holds above its rent *)
Definition surplus (w : world) : nat * Z :=
  let a := w SWIG2 in (length (a_data a), a_lamports a - rent toy (length (a_data a))).
Lemma den_then es : (length es <=? 50)%nat = true -> playable toy (den []) es = true -> reach toy (den []) (run toy (den []) es).
Proof.
  intros L P. apply Nat.leb_le in L.
  assert (O : reach toy genesis (den []) /\ roomy 50000 (den [])).
  { apply fresh_plays; [exact toy_foreign_ok|exact genesis_fresh|cbn; lia|vm_compute; reflexivity]. }
  destruct O as (O1 & O2). apply (playable_reach toy 0); [exact toy_foreign_ok|lia| | |lia|exact P].
  - eapply reach_good; [exact toy_foreign_ok|apply fresh_good; exact genesis_fresh|exact O1].
  - eapply roomy_le; [|exact O2]. lia.
Qed.
