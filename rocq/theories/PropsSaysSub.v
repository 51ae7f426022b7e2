(** C106 (continued): the first line, and a line for every subvolume that no entry leads to. *)
From Verif Require Import Go GoProofs Layout KeyFmt Bolt Store ToString Fs Recover RecoverProofs PropsRecoverPaths RecoverSays PropsText PropsReport PropsRecoverSays PropsSaysAll.
From Coq Require Import Strings.String.
From Coq Require Import List ZifyBool ZifyNat.
Import ListNotations.
Ltac Zify.zify_post_hook ::= Z.div_mod_to_equations.

(** directory [d] of tree [o] is the root, the top of a subvolume that was told of, or an entry of a directory that was read leads to it *)
Definition reached (q : queries) (said : list said) (log : list event) (o d : Z) : Prop :=
  (o = 5 /\ d = 256) \/ (d = 256 /\ exists p, In (SSubvol o p) said) \/
  exists o' d' k di loc, In (EvList o' d') log /\ In (k, di) (st_items (q_dirItems q o' d')) /\ DirItem_Location di = Ok loc /\
    ((KType loc = 132 /\ o = ObjectID loc /\ d = 256) \/ (KType loc <> 132 /\ o = o' /\ d = ObjectID loc)).
Section Sub.
  Variables (cfuel : nat) (E : env) (dev : readerAt) (q : queries) (clobber : bool).
  Definition got (ws : world * list said) := reached q (snd ws) (w_log (fst ws)).
  Definition inv (ws : world * list said) (v : list (Z * Z)) : Prop := forall o d, In (o, d) v -> got ws o d.
  Lemma got_more a b o d : grows a b -> got a o d -> got b o d.
  Proof.
    intros G [H|[[H (p & X)]|(o' & d' & k & di & loc & H & R)]]; [left; exact H|right; left; split; [exact H|exists p; exact (grows_in_said a b _ G X)]|].
    right. right. exists o', d', k, di, loc. split; [exact (grows_in_log a b _ G H)|exact R].
  Qed.
  Lemma inv_more a b v : grows a b -> inv a v -> inv b v.
  Proof. intros G H o d HI. exact (got_more a b o d G (H o d HI)). Qed.
  Lemma key_in_In k v : key_in k v = true -> In k v.
  Proof.
    unfold key_in. intros H. apply existsb_exists in H as ([a b] & HI & H). apply andb_prop in H as [H1 H2]. destruct k as [c d]. cbn [fst snd] in *. apply Z.eqb_eq in H1, H2. subst. exact HI.
  Qed.
  (** what a run over one directory, told where it comes from, does to the keys *)
  Definition okdir (rec : Z -> Z -> list byte -> list (Z * Z) -> V (list (Z * Z) * bool)) : Prop := forall o d p v ws ws' r,
    got ws o d -> inv ws v -> rec o d p v ws = (ws', Ret r) -> grows ws ws' /\ inv ws' (fst r) /\ (In (o, d) (fst r) /\ incl v (fst r)).
  Lemma grows_refl a : grows a a. Proof. split; exists []; reflexivity. Qed.
  Lemma all_grows {A} (v : V A) ws ws' a : all q v -> v ws = (ws', Ret a) -> grows ws ws'.
  Proof. intros H HE. exact (proj1 (H _ _ _ HE)). Qed.
  Lemma items_reached recV owner dir dest : okdir recV -> (forall o d p v, all q (recV o d p v)) ->
    forall l v ws ws' v', incl l (st_items (q_dirItems q owner dir)) -> In (EvList owner dir) (w_log (fst ws)) -> inv ws v ->
    items_loopV recV cfuel E dev q clobber owner dest l v ws = (ws', Ret v') -> grows ws ws' /\ inv ws' v' /\ incl v v'.
  Proof.
    intros HR HA. induction l as [|[k di] l IH]; intros v ws ws' v' HI HL HV H; cbn [items_loopV] in H; [injection H as <- <-; split; [apply grows_refl|split; [exact HV|apply incl_refl]]|].
    assert (H0 : In (k, di) (st_items (q_dirItems q owner dir))) by (apply HI; left; reflexivity). assert (HI' : incl l (st_items (q_dirItems q owner dir))) by (intros x Hx; apply HI; right; exact Hx).
    apply vbind_ret in H as (ws1 & a & H1 & H). apply up_lift_ret in H1 as [-> EC]. apply vbind_ret in H as (ws2 & v2 & H1 & H2).
    assert (G : grows ws ws2 /\ inv ws2 v2 /\ incl v v2).
    { destruct a as [|o d p|i p|i p].
      - apply vbind_ret in H1 as (ws3 & x & E1 & H1). apply up_lift_ret in E1 as [-> ES]. apply vbind_ret in H1 as (ws4 & [] & E1 & H1). injection H1 as <- <-.
        assert (L : grows ws ws4) by (destruct x as [[p t]|]; [exact (all_grows _ _ _ _ (all_say q _) E1)|injection E1 as <-; apply grows_refl]).
        split; [exact L|]. split; [exact (inv_more _ _ _ L HV)|apply incl_refl].
      - apply vbind_ret in H1 as (ws3 & r & E1 & H1). apply vbind_ret in H1 as (ws4 & [] & E2 & H1). injection H1 as <- <-.
        assert (GR : got ws o d).
        { right. right. unfold classify in EC. destruct (DirItem_Name di) as [n| |]; cbn [rbind] in EC; try discriminate. destruct (skip_name n); [discriminate|].
          destruct (DirItem_IsDir di) as [isd| |]; cbn [rbind] in EC; try discriminate.
          destruct (if isd then Ok true else DirItem_IsSubvolume di) as [[]| |]; cbn [rbind] in EC; try discriminate.
          - destruct (DirItem_Location di) as [loc| |] eqn:EL; cbn [rbind] in EC; try discriminate. unfold DirItem_IsSubvolume in EC. rewrite EL in EC. cbn [rbind] in EC.
            exists owner, dir, k, di, loc. split; [exact HL|]. split; [exact H0|]. split; [exact EL|]. change RootItemKey with 132 in EC. destruct (Z.eqb_spec (KType loc) 132) as [e|e]; injection EC as <- <- _; [left|right]; auto.
          - destruct (DirItem_Type di) as [ty| |]; cbn [rbind] in EC; try discriminate. destruct (ty =? FtRegFile); [destruct (DirItem_Location di); cbn [rbind] in EC; discriminate|].
            destruct (ty =? FtSymlink); [destruct (DirItem_Location di); cbn [rbind] in EC; discriminate|discriminate]. }
        destruct (HR _ _ _ _ _ _ _ GR HV E1) as (G1 & V1 & (_ & I1)). pose proof (all_grows _ _ _ _ (all_up q _ (no_warn _ _ _)) E2) as G2.
        split; [exact (grows_trans _ _ _ G1 G2)|]. split; [exact (inv_more _ _ _ G2 V1)|exact I1].
      - apply vbind_ret in H1 as (ws3 & r & E1 & H1). apply vbind_ret in H1 as (ws4 & [] & E2 & H1). injection H1 as <- <-.
        pose proof (grows_trans _ _ _ (all_grows _ _ _ _ (all_file cfuel E dev q clobber owner i p) E1) (all_grows _ _ _ _ (all_up q _ (no_warn _ _ _)) E2)) as L.
        split; [exact L|]. split; [exact (inv_more _ _ _ L HV)|apply incl_refl].
      - apply vbind_ret in H1 as (ws3 & r & E1 & H1). apply vbind_ret in H1 as (ws4 & [] & E2 & H1). injection H1 as <- <-.
        pose proof (grows_trans _ _ _ (all_grows _ _ _ _ (all_link E dev q clobber owner i p) E1) (all_grows _ _ _ _ (all_up q _ (no_warn _ _ _)) E2)) as L.
        split; [exact L|]. split; [exact (inv_more _ _ _ L HV)|apply incl_refl]. }
    destruct G as (G & V2 & I2). destruct (IH v2 ws2 ws' v' HI' (grows_in_log _ _ _ G HL) V2 H2) as (G' & V' & I').
    split; [exact (grows_trans _ _ _ G G')|]. split; [exact V'|exact (incl_tran I2 I')].
  Qed.
  Lemma dir_reached fuel : okdir (recoverDirV fuel cfuel E dev q clobber).
  Proof.
    induction fuel as [|fuel IH]; intros owner dir dest v ws ws' r HG HV H; cbn [recoverDirV] in H; [discriminate|].
    destruct (key_in (owner, dir) v) eqn:EK; [injection H as <- <-; split; [apply grows_refl|]; split; [exact HV|]; split; [exact (key_in_In _ _ EK)|apply incl_refl]|].
    apply vbind_ret in H as (ws1 & ok & H1 & H). pose proof (all_grows _ _ _ _ (all_up q _ (no_mk E dest)) H1) as G1.
    assert (V1 : inv ws1 ((owner, dir) :: v)) by (intros o d [X|X]; [injection X as <- <-; exact (got_more _ _ _ _ G1 HG)|exact (inv_more _ _ _ G1 HV o d X)]).
    destruct ok; cbn [negb] in H; [|injection H as <- <-; split; [exact G1|]; split; [exact V1|]; split; [left; reflexivity|intros x Hx; right; exact Hx]].
    apply vbind_ret in H as (ws2 & [] & H2 & H). apply vbind_ret in H as (ws3 & [] & H3 & H). apply up_lift_ret in H3 as [-> _]. apply vbind_ret in H as (ws4 & v' & H4 & H). injection H as <- <-. cbn [fst].
    assert (G2 : grows ws1 ws2 /\ In (EvList owner dir) (w_log (fst ws2))).
    { destruct ws1 as [w s]. unfold up, emit in H2. injection H2 as <-. split; [split; [exists [EvList owner dir]|exists []]; reflexivity|left; reflexivity]. }
    destruct G2 as [G2 L2]. destruct (items_reached _ owner dir dest IH (all_dir cfuel E dev q clobber fuel) _ _ _ _ _ (incl_refl _) L2 (inv_more _ _ _ G2 V1) H4) as (G4 & V4 & I4).
    split; [exact (grows_trans _ _ _ (grows_trans _ _ _ G1 G2) G4)|]. split; [exact V4|]. split; [apply I4; left; reflexivity|intros x Hx; apply I4; right; exact Hx].
  Qed.
  Lemma subvols_reached fuel dest : forall l fin v ws ws' v', inv ws v -> subvols_loopV fuel cfuel E dev q clobber dest l fin v ws = (ws', Ret v') ->
    grows ws ws' /\ forall k d, In (k, d) l -> got ws' (ObjectID (ik_Key k)) 256.
  Proof.
    induction l as [|[k d] l IH]; intros fin v ws ws' v' HV H; cbn [subvols_loopV] in H.
    - apply vbind_ret in H as (ws1 & [] & H1 & H). apply up_lift_ret in H1 as [-> _]. injection H as <- _. split; [apply grows_refl|intros k d []].
    - apply vbind_ret in H as (ws1 & v1 & H1 & H).
      assert (G : grows ws ws1 /\ inv ws1 v1 /\ got ws1 (ObjectID (ik_Key k)) 256).
      { destruct (key_in (ObjectID (ik_Key k), FirstFreeObjectID) v) eqn:EK; [injection H1 as <- <-; split; [apply grows_refl|]; split; [exact HV|]; apply HV; exact (key_in_In _ _ EK)|].
        apply vbind_ret in H1 as (ws2 & [] & H2 & H1). pose proof (all_grows _ _ _ _ (all_say q _) H2) as G2.
        assert (S2 : got ws2 (ObjectID (ik_Key k)) 256). { right. left. split; [reflexivity|]. eexists. destruct ws as [w s]. injection H2 as <-. left. reflexivity. }
        apply vbind_ret in H1 as (ws3 & r & H3 & H1). apply vbind_ret in H1 as (ws4 & [] & H4 & H1). injection H1 as <- <-.
        destruct (dir_reached fuel _ _ _ _ _ _ _ S2 (inv_more _ _ _ G2 HV) H3) as (G3 & V3 & (I3 & _)). pose proof (all_grows _ _ _ _ (all_up q _ (no_warn _ _ _)) H4) as G4.
        split; [exact (grows_trans _ _ _ G2 (grows_trans _ _ _ G3 G4))|]. split; [exact (inv_more _ _ _ G4 V3)|]. exact (got_more _ _ _ _ (grows_trans _ _ _ G3 G4) S2). }
      destruct G as (G & V1 & S1). destruct (IH _ _ _ _ _ V1 H) as [G' T]. split; [exact (grows_trans _ _ _ G G')|]. intros k' d' [X|X]; [injection X as <- _; exact (got_more _ _ _ _ G' S1)|exact (T k' d' X)].
  Qed.
End Sub.
(** In a run that ends, the first line is that of the root, and every subvolume has its line unless an entry of a directory that was read leads to it. *)
Theorem C106_subvolumes : forall fuel cfuel E dev q clobber dest w w' said v, doRecoverFilesV fuel cfuel E dev q clobber dest (w, []) = ((w', said), Ret (true, v)) ->
  (exists l, rev said = SRoot 5 :: l) /\ forall k d, In (k, d) (st_items (q_subvolumes q)) -> reached q said (w_log w') (ObjectID (ik_Key k)) 256.
Proof.
  intros fuel cfuel E dev q clobber dest w w' sd v H. unfold doRecoverFilesV in H. apply vbind_ret in H as (ws1 & ok & H1 & H). destruct ok; cbn [negb] in H; [|apply vbind_ret in H as (ws2 & [] & _ & H); discriminate H].
  apply vbind_ret in H as (ws2 & [] & H2 & H). apply vbind_ret in H as (ws3 & r & H3 & H). apply vbind_ret in H as (ws4 & [] & H4 & H). apply vbind_ret in H as (ws5 & v' & H5 & H). injection H as -> _.
  assert (S2 : snd ws2 = [SRoot 5]). { unfold up in H1. destruct (MkdirAll E dest w) as [w1 o1]. injection H1 as <- _. injection H2 as <-. reflexivity. }
  assert (R2 : got q ws2 5 256) by (left; auto). assert (V2 : inv q ws2 []) by (intros o d []).
  destruct (dir_reached cfuel E dev q clobber fuel 5 256 dest [] ws2 ws3 r R2 V2 H3) as (G3 & V3 & _). pose proof (all_grows q _ _ _ _ (all_up q _ (no_warn _ _ _)) H4) as G4.
  destruct (subvols_reached cfuel E dev q clobber fuel dest _ _ _ _ _ _ (inv_more q _ _ _ G4 V3) H5) as [G5 T]. split; [|exact T].
  destruct (grows_trans _ _ _ G3 (grows_trans _ _ _ G4 G5)) as [_ (l & L)]. cbn [snd] in L. rewrite S2 in L. exists (rev l). rewrite L, rev_app_distr. reflexivity.
Qed.
