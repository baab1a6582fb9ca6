(** * Sub-accounts of the first version, as permissions of a role.

    Vocabulary for the theorems that say that what is asked for is done. *)
From Verif Require Export SpecSub2.

(** [d] is the data of the first permission of kind 9 of the role [r] that names
    the address [sa]; [l1] and [l2] are the permissions around it *)
Definition sub_perm (r : role) (sa : key) (l1 : list action) (d : bytes) (l2 : list action) : Prop :=
  r_acts r = l1 ++ mk_action 9 d :: l2 /\ sub 0 32 d = sa
  /\ forall p, In p l1 -> ac_ty p = 9 -> sub 0 32 (ac_data p) <> sa.
(** The role has no permission for the address [sa] *)
Definition no_sub_perm (r : role) (sa : key) : Prop :=
  forall p, In p (r_acts r) -> ac_ty p = 9 -> sub 0 32 (ac_data p) <> sa.
(** The permission data [d] opens the sub-account with bump [bump] to its owner,
    the role number [rid] of the wallet [s] *)
Definition opens_sub (s : config) (d : bytes) (rid bump : Z) : Prop :=
  nth 33 d 0 <> 0 /\ nth 32 d 0 = bump /\ le (sub 36 4 d) = rid /\ sub 40 32 d = s_id s.
(** The role [i] with the list of permissions [l] *)
Definition permissions (i : Z) (l : list action) (s : config) : config := on_role i (fun r0 => with_acts r0 l) s.
(** Permission data with the switch set to [on] *)
Definition switched (on : Z) (d : bytes) : bytes := firstn 33 d ++ [on] ++ skipn 34 d.
(** Searching for an address finds one that is derived with the bump found *)
Definition search_sound (E : env) : Prop := forall seeds k b, find_pda E seeds = (k, b) -> pda E (seeds ++ [[b]]) = Some k.
(** The role may take lamports out of the sub-account at [sa]: it owns it, or it
    holds all powers and the address belongs to one of the roles 0 to 10 *)
Definition may_empty (E : env) (s : config) (r : role) (sa : key) : Prop :=
  (exists l1 d l2 b, sub_perm r sa l1 d l2 /\ opens_sub s d (r_id r) b /\ pda E (seeds_sub (s_id s) (r_id r) b) = Some sa)
  \/ (no_sub_perm r sa /\ holds 7 r /\ ~ holds 8 r /\ search_sound E
      /\ exists c, 0 <= c <= 10 /\ fst (find_pda E (seeds_sub0 (s_id s) c)) = sa).
