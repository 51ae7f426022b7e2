(** Property C33: the printed names are those of the btrfs format. *)
From Coq Require Import Strings.String.
From Verif Require Import Go GoProofs Layout ToString PropsText SpecNames.
From Coq Require Import ZifyBool ZifyNat ZifyN.

Lemma switch_default t x : (forall s, ~ In (x, s) t) -> switch t x = dec x.
Proof.
  induction t as [|[c s] t IH]; intros H; [reflexivity|]. cbn [switch]. destruct (x =? c) eqn:E.
  - apply Z.eqb_eq in E. subst c. destruct (H s). left. reflexivity.
  - apply IH. intros s' Hs. apply (H s'). right. exact Hs.
Qed.
(** every item type of btrfs but QGROUP_LIMIT is printed under its name, every other type as a number *)
Theorem C33_item_types :
  (forall n t, In (n, t) btrfs_item_types -> n <> "QGROUP_LIMIT"%string -> KeyTypeString t = str n) /\
  (forall t, ~ In t (map snd btrfs_item_types) \/ t = 244 -> KeyTypeString t = dec t).
Proof.
  split.
  - assert (HF : forallb (fun p => bytes_eqb (KeyTypeString (snd p)) (str (fst p)) || String.eqb (fst p) "QGROUP_LIMIT") btrfs_item_types = true) by (vm_compute; reflexivity).
    rewrite forallb_forall in HF. intros n t HI Hn. specialize (HF _ HI). cbn [fst snd] in HF. apply orb_prop in HF as [HF|HF]; [apply bytes_eqb_eq; exact HF|]. apply String.eqb_eq in HF. contradiction.
  - intros t [H| ->]; [|vm_compute; reflexivity]. apply switch_default. intros s Hs. apply H.
    assert (HF : forallb (fun p => existsb (Z.eqb (fst p)) (map snd btrfs_item_types)) type_names = true) by (vm_compute; reflexivity).
    rewrite forallb_forall in HF. specialize (HF _ Hs). cbn [fst] in HF. apply existsb_exists in HF as (y & Hy & E). apply Z.eqb_eq in E. subst y. exact Hy.
Qed.
(** every reserved object id of btrfs but those of the UUID and free space trees is printed under its
    name, every other id as a number *)
Theorem C33_objects :
  (forall n z, In (n, z) btrfs_objects -> z <> 9 -> z <> 10 -> ObjectIDString (z mod 2^64) = str n) /\
  ObjectIDString 9 = str "UUID" /\ ObjectIDString 10 = str "FREES_SPACE_TREE" /\
  (forall x, ~ In x (map (fun p => snd p mod 2^64) btrfs_objects) -> ObjectIDString x = dec x).
Proof.
  split; [|split; [vm_compute; reflexivity|split; [vm_compute; reflexivity|]]].
  - assert (HF : forallb (fun p => bytes_eqb (ObjectIDString (snd p mod 2^64)) (str (fst p)) || (snd p =? 9) || (snd p =? 10)) btrfs_objects = true) by (vm_compute; reflexivity).
    rewrite forallb_forall in HF. intros n t HI H9 H10. specialize (HF _ HI). cbn [fst snd] in HF. apply orb_prop in HF as [HF|HF]; [apply orb_prop in HF as [HF|HF]; [apply bytes_eqb_eq; exact HF|]|]; apply Z.eqb_eq in HF; contradiction.
  - intros x H. apply switch_default. intros s Hs. apply H.
    assert (HF : forallb (fun p => existsb (Z.eqb (fst p)) (map (fun p => snd p mod 2^64) btrfs_objects)) object_names = true) by (vm_compute; reflexivity).
    rewrite forallb_forall in HF. specialize (HF _ Hs). cbn [fst] in HF. apply existsb_exists in HF as (y & Hy & E). apply Z.eqb_eq in E. subst y. exact Hy.
Qed.
Example C33_names_ex : KeyTypeString 84 = str "DIR_ITEM" /\ ObjectIDString (2^64 - 256) = str "LAST_FREE" /\ KeyTypeString 244 = dec 244 /\ ObjectIDString 257 = dec 257.
Proof. repeat split; vm_compute; reflexivity. Qed.
Print Assumptions C33_item_types. Print Assumptions C33_objects.
