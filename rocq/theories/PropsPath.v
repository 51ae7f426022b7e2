(** Property theorems C30: path lookup. *)
From Verif Require Import Go GoProofs Layout LayoutProofs SpecLayout StructProofs PropsLayout KeyFmt KeyProofs Bolt Store StoreProofs SpecStore RangeProofs PropsStore PropsRange Crc PropsCrc RangeItems Path MkIndex.
From Coq Require Import ZifyBool ZifyNat ZifyN Sorted.
Ltac Zify.zify_post_hook ::= Z.div_mod_to_equations.

(** ** specification: directories as stored in the index *)
(** a record of directory [dir] in tree [o] (type 84 is DIR_ITEM) *)
Definition dir_record (b : bucket) (o dir off g : Z) (v : list byte) : Prop :=
  is_u64 dir /\ is_u64 off /\ is_u64 g /\ stored b o (mkKey dir 84 off) g v.
(** directory [dir] of tree [o] has the entry [di] *)
Definition entry (b : bucket) (o dir : Z) (di : d_dir_item) : Prop :=
  exists off g v, dir_record b o dir off g v /\ holds v (dir_item_fields di).
(** where an entry leads: another inode of the same tree, or (location of type
    132, ROOT_ITEM) the root directory 256 of another tree *)
Definition target (o : Z) (di : d_dir_item) : Z * Z :=
  if k_type (di_location di) =? 132 then (k_objectid (di_location di), 256) else (o, k_objectid (di_location di)).
(** following [comps] from directory [dir] of tree [o] ends at [di]; all but
    the last component are directories (type 2) *)
Inductive leads (b : bucket) : Z -> Z -> list (list byte) -> d_dir_item -> Prop :=
| leads_last o dir di : entry b o dir di -> leads b o dir [di_name di] di
| leads_step o dir di rest t : entry b o dir di -> di_type di = 2 ->
    leads b (fst (target o di)) (snd (target o di)) rest t -> leads b o dir (di_name di :: rest) t.
(** "a/b/c" *)
Fixpoint join (comps : list (list byte)) : list byte :=
  match comps with [] => [] | [c] => c | c :: cs => c ++ x2f :: join cs end.
(** the trees (owners) a lookup can visit, and what must hold in each *)
Record tree_ok (b : bucket) (gen : Z) (T : Z -> Prop) : Prop := {
  t_u64 : forall o, T o -> is_u64 o /\ o < 2^64 - 1;
  t_data : forall o, T o -> data_ok b o /\ no_max_gen b o;
  t_wrap : forall o dir, T o -> is_u64 dir -> no_wrap b o (mkKey dir 84 (2^64 - 1));
  t_last : forall o dir, T o -> gen = 2^64 - 1 \/ ~ present b o (mkKey dir 84 (2^64 - 1));
  (* every record is one entry, with a name of at most 255 bytes *)
  t_parse : forall o dir off g v, T o -> dir_record b o dir off g v -> exists di, holds v (dir_item_fields di) /\ zlen (di_name di) <= 255;
  (* all records of a directory have the same generation *)
  t_gen : forall o dir off g v off' g' v', T o -> dir_record b o dir off g v -> dir_record b o dir off' g' v' -> g = g';
  (* a name occurs once in a directory *)
  t_uniq : forall o dir di di', T o -> entry b o dir di -> entry b o dir di' -> di_name di = di_name di' -> di = di';
  (* what is not a directory is no subvolume and has no entries *)
  t_leaf : forall o dir di, T o -> entry b o dir di -> di_type di <> 2 ->
    k_type (di_location di) <> 132 /\ forall di', ~ entry b o (k_objectid (di_location di)) di';
  (* subvolumes are visited as well *)
  t_sub : forall o dir di, T o -> entry b o dir di -> k_type (di_location di) = 132 -> T (k_objectid (di_location di)) }.

(** ** proofs *)
Lemma Split_noslash c : ~ In x2f c -> Split c = [c].
Proof.
  induction c as [|x c IH]; [reflexivity|]. intros H. cbn [Split]. unfold slash. destruct (beqb x x2f) eqn:E.
  - apply beqb_eq in E. subst x. exfalso. apply H. left. reflexivity.
  - rewrite IH by (intros Hc; apply H; right; exact Hc). reflexivity.
Qed.
Lemma Split_cons c rest : ~ In x2f c -> Split (c ++ x2f :: rest) = c :: Split rest.
Proof.
  induction c as [|x c IH]; intros H; [reflexivity|]. cbn [Split app]. unfold slash. destruct (beqb x x2f) eqn:E.
  - apply beqb_eq in E. subst x. exfalso. apply H. left. reflexivity.
  - rewrite IH by (intros Hc; apply H; right; exact Hc). reflexivity.
Qed.
Lemma Split_join comps : comps <> [] -> (forall c, In c comps -> ~ In x2f c) -> Split (join comps) = comps.
Proof.
  induction comps as [|c cs IH]; [congruence|]. intros _ H. destruct cs as [|c' cs].
  - cbn [join]. apply Split_noslash. apply H. left. reflexivity.
  - change (join (c :: c' :: cs)) with (c ++ x2f :: join (c' :: cs)). rewrite Split_cons by (apply H; left; reflexivity).
    rewrite IH; [reflexivity|discriminate|]. intros x Hx. apply H. right. exact Hx.
Qed.
Lemma TrimLeft_slashes n s : TrimLeft (repeat x2f n ++ s) = TrimLeft s.
Proof. induction n as [|n IH]; [reflexivity|exact IH]. Qed.
Lemma comps_of n comps : comps <> [] -> (forall c, In c comps -> ~ In x2f c) -> (hd [] comps <> [] \/ comps = [[]]) ->
  Split (TrimLeft (repeat x2f n ++ join comps)) = comps.
Proof.
  intros Hne Hs Hh. rewrite TrimLeft_slashes. destruct Hh as [Hh| ->]; [|reflexivity].
  replace (TrimLeft (join comps)) with (join comps); [apply Split_join; assumption|].
  destruct comps as [|c cs]; [congruence|]. cbn [hd] in Hh. destruct c as [|x c]; [congruence|].
  assert (E : exists r, join ((x :: c) :: cs) = x :: r) by (destruct cs; cbn [join app]; eauto). destruct E as [r ->].
  cbn [TrimLeft]. unfold slash. destruct (beqb x x2f) eqn:Eb; [|reflexivity].
  apply beqb_eq in Eb. subst x. exfalso. apply (Hs (x2f :: c)); [left; reflexivity|left; reflexivity].
Qed.

(** an entry carried by a slice *)
Lemma entry_acc d di : carries d (dir_item_fields di) -> zlen (di_name di) <= 255 ->
  DirItem_Name d = Ok (di_name di) /\ DirItem_IsDir d = Ok (di_type di =? 2) /\
  DirItem_IsSubvolume d = Ok (k_type (di_location di) =? 132) /\
  exists t f, DirItem_Location d = Ok (mkKey (k_objectid (di_location di)) t f).
Proof.
  intros H Hl. split; [apply (proj1 C08_names_exact); assumption|]. destruct (C06_dir_item di d H) as (A & _ & _ & _ & _ & B & C). eauto.
Qed.
Lemma entry_loc_u64 di v : holds v (dir_item_fields di) -> is_u64 (k_objectid (di_location di)).
Proof.
  intros (d & _ & _ & F & _). inversion F as [|f fs F1 F2 E]. cbn in F1. unfold is_u64. change (256 ^ 8) with (2^64) in F1. exact F1.
Qed.

Section Find.
  Variables (b : bucket) (gen : Z) (T : Z -> Prop) (fuel : nat).
  Hypothesis Op : opened b.
  Hypothesis Hgen : is_u64 gen.
  Hypothesis TO : tree_ok b gen T.
  Hypothesis Hfuel : (length b + 1 < fuel)%nat.

  Lemma find_comp_spec o dir comp last : T o -> is_u64 dir ->
    (exists d di, find_comp fuel b gen o dir comp last = Ok (Some d) /\ carries d (dir_item_fields di) /\ zlen (di_name di) <= 255 /\
       entry b o dir di /\ di_name di = comp) \/
    (find_comp fuel b gen o dir comp last = Ok None /\ forall di, entry b o dir di -> di_name di = comp -> di_type di <> 2 /\ last = false).
  Proof.
    intros HT Hdir. destruct (t_u64 _ _ _ TO o HT) as [Ho Hom]. destruct (t_data _ _ _ TO o HT) as [ND NM].
    assert (HKF : KF3 DirItemKey dir (NameHash comp) = mkKey dir 84 (NameHash comp)) by reflexivity.
    assert (Hh : is_u64 (NameHash comp)) by (pose proof (C31_fits comp); unfold is_u64, is_u32 in *; lia).
    assert (Wk : wf_Key (mkKey dir 84 (NameHash comp))) by (unfold wf_Key; cbn; split; [exact Hdir|split; [unfold is_u8; lia|exact Hh]]).
    unfold find_comp. rewrite HKF.
    set (slow := range_for fuel b (DirItems b gen o dir) (keyed (slow_body comp last)) None).
    assert (Slow : (exists d di, slow = Ok (Some d) /\ carries d (dir_item_fields di) /\ zlen (di_name di) <= 255 /\
       entry b o dir di /\ di_name di = comp) \/
       (slow = Ok None /\ forall di, entry b o dir di -> di_name di = comp -> di_type di <> 2 /\ last = false)).
    { assert (HG : exists g, forall f g' v, is_u64 f -> is_u64 g' -> stored b o (mkKey dir 84 f) g' v -> g' = g).
      { destruct (offsets_exist b o 84 dir (proj1 Op) Ho ltac:(unfold is_u8; lia) Hdir) as (offs & HO & _). destruct offs as [|f0 offs].
        - exists 0. intros f g' v Hf Hg Hst. exfalso. apply (proj2 (proj2 HO f)). split; [|exists g', v; auto].
          unfold wf_Key; cbn; split; [exact Hdir|split; [unfold is_u8; lia|exact Hf]].
        - destruct (proj1 (proj2 HO f0) (or_introl eq_refl)) as ((_ & _ & Hf0) & g0 & v0 & Hg0 & Hst0). exists g0.
          intros f g' v Hf Hg Hst. apply (t_gen _ _ _ TO o dir f g' v f0 g0 v0 HT); (split; [exact Hdir|split; [assumption|split; assumption]]). }
      destruct HG as [g HG].
      destruct (range_all_records b gen o 84 dir g fuel Op Ho Hom ltac:(unfold is_u8; lia) Hdir ltac:(lia) Hgen ND NM (t_wrap _ _ _ TO o dir HT Hdir)
        (t_last _ _ _ TO o dir HT) Hfuel HG) as (offs & L & HO & _ & EL & F).
      unfold slow, DirItems. change DirItemKey with 84. rewrite (range_for_items _ _ _ L EL).
      assert (HA : forall di, entry b o dir di -> exists e, In e L /\ carries (snd e) (dir_item_fields di)).
      { intros di (off & g' & v & (_ & Hof & Hg' & Hst) & d & Hd & Hc). assert (Hin : In off offs).
        { apply HO. split; [unfold wf_Key; cbn; split; [exact Hdir|split; [unfold is_u8; lia|exact Hof]]|exists g', v; auto]. }
        rewrite (HG off g' v Hof Hg' Hst) in Hst. clear -F Hin Hst Hd Hc Op.
        induction F as [|f e offs L (v' & A & B & C & D & E) F IH]; [destruct Hin|].
        destruct Hin as [->|Hin]; [|destruct (IH Hin) as (e' & A' & B'); exists e'; split; [right; exact A'|exact B']].
        exists e. split; [left; reflexivity|]. assert (v' = v) by (apply (stored_inj b o (mkKey dir 84 off) g); [apply Op|assumption|assumption]). subst v'.
        rewrite Hd in E. injection E as <-. exact Hc. }
      assert (HB : Forall (fun e => exists di, carries (snd e) (dir_item_fields di) /\ zlen (di_name di) <= 255 /\ entry b o dir di) L).
      { clear HA EL HO. induction F as [|f e offs L (v & A & B & C & D & E) F IH]; constructor; [|exact IH].
        assert (DR : dir_record b o dir f g v) by (split; [exact Hdir|split; [exact B|split; assumption]]).
        destruct (t_parse _ _ _ TO o dir f g v HT DR) as (di & Hh1 & Hlen). exists di. split; [|split; [exact Hlen|exists f, g, v; auto]].
        destruct Hh1 as (d & Hd & Hc). rewrite E in Hd. injection Hd as <-. exact Hc. }
      clear slow EL F HO.
      assert (HF : (exists d di, fold_items (slow_body comp last) L None = Ok (Some d) /\ carries d (dir_item_fields di) /\ zlen (di_name di) <= 255 /\
         entry b o dir di /\ di_name di = comp) \/
         (fold_items (slow_body comp last) L None = Ok None /\ forall e di, In e L -> carries (snd e) (dir_item_fields di) -> entry b o dir di -> di_name di = comp -> di_type di <> 2 /\ last = false)).
      { clear HA. induction HB as [|[k d] L (di & Hc & Hlen & He) HB IH]; [right; split; [reflexivity|intros e di []]|].
        cbn [snd] in Hc. destruct (entry_acc d di Hc Hlen) as (En & Ed & _). cbn [fold_items]. unfold slow_body at 1 3. rewrite En. cbn [rbind].
        destruct (bytes_eqb (di_name di) comp) eqn:Eb.
        - apply bytes_eqb_eq in Eb. rewrite Ed. cbn [rbind]. destruct ((di_type di =? 2) || last) eqn:Eo.
          + left. exists d, di. cbn [rbind]. auto.
          + cbn [rbind]. destruct IH as [IH|[IH1 IH2]]; [left; exact IH|right]. split; [exact IH1|].
            intros e di' [<-|Hin] Hc' He' Hn'; [|exact (IH2 e di' Hin Hc' He' Hn')].
            assert (di' = di) by (apply (t_uniq _ _ _ TO o dir di' di HT He' He); congruence). subst di'. apply orb_false_iff in Eo as [E1 E2]. split; [apply Z.eqb_neq; exact E1|exact E2].
        - cbn [rbind]. destruct IH as [IH|[IH1 IH2]]; [left; exact IH|right]. split; [exact IH1|].
          intros e di' [<-|Hin] Hc' He' Hn'; [|exact (IH2 e di' Hin Hc' He' Hn')]. exfalso.
          cbn [snd] in Hc'. destruct (C06_dir_item _ _ Hc') as (_ & _ & _ & HL1 & _). pose proof (C06_dir_item _ _ Hc) as (_ & _ & _ & HL2 & _).
          assert (zlen (di_name di') <= 255) by (rewrite HL1 in HL2; injection HL2 as ->; exact Hlen).
          destruct (entry_acc d di' Hc') as (En' & _); [assumption|]. rewrite En in En'. injection En' as E. rewrite E, Hn' in Eb.
          rewrite bytes_eqb_refl in Eb. discriminate. }
      destruct HF as [HF|[HF1 HF2]]; [left; exact HF|right]. split; [exact HF1|]. intros di He Hn.
      destruct (HA di He) as (e & Hin & Hc). exact (HF2 e di Hin Hc He Hn). }
    destruct (C17_selected_partial b gen o (mkKey dir 84 (NameHash comp)) Op Wk Ho Hgen) as [(g & v & HF & Hst & Hg & _)|[HF _]].
    { intros (_ & E & _). cbn in E. lia. }
    2:{ rewrite HF. cbn [rbind]. exact Slow. }
    rewrite HF. cbn [rbind]. assert (DR : dir_record b o dir (NameHash comp) g v) by (split; [exact Hdir|split; [exact Hh|split; assumption]]).
    destruct (t_parse _ _ _ TO o dir _ g v HT DR) as (di & (d & Hd & Hc) & Hlen). rewrite Hd. cbn [rbind].
    destruct (entry_acc d di Hc Hlen) as (En & _). rewrite En. cbn [rbind]. destruct (bytes_eqb (di_name di) comp) eqn:Eb; [|exact Slow].
    left. exists d, di. split; [reflexivity|]. split; [exact Hc|]. split; [exact Hlen|]. split; [|apply bytes_eqb_eq; exact Eb].
    exists (NameHash comp), g, v. split; [exact DR|]. exists d. auto.
  Qed.
  Lemma target_ok o dir di : T o -> entry b o dir di -> T (fst (target o di)) /\ is_u64 (snd (target o di)).
  Proof.
    intros HT He. unfold target. destruct (k_type (di_location di) =? 132) eqn:E; cbn [fst snd].
    - split; [|unfold is_u64; lia]. apply (t_sub _ _ _ TO o dir di HT He). lia.
    - split; [exact HT|]. destruct He as (off & g & v & _ & H). exact (entry_loc_u64 di v H).
  Qed.
  Lemma leads_cons_inv o dir c rest t : leads b o dir (c :: rest) t ->
    exists di, entry b o dir di /\ di_name di = c /\ ((rest = [] /\ di = t) \/ (di_type di = 2 /\ leads b (fst (target o di)) (snd (target o di)) rest t)).
  Proof.
    intros H. inversion H as [o' dir' di He|o' dir' di rest' t' He Ht HL]; subst; [exists t; auto|exists di; auto].
  Qed.
  Lemma path_loop_spec comps : comps <> [] -> forall o dir r0, T o -> is_u64 dir ->
    (exists d di, path_loop fuel b gen o dir comps r0 = Ok (Some d) /\ carries d (dir_item_fields di) /\ leads b o dir comps di) \/
    (path_loop fuel b gen o dir comps r0 = Ok None /\ forall di, ~ leads b o dir comps di).
  Proof.
    induction comps as [|comp rest IH]; [congruence|]. intros _ o dir r0 HT Hdir. cbn [path_loop].
    destruct (find_comp_spec o dir comp (match rest with [] => true | _ => false end) HT Hdir) as [(d & di & HF & Hc & Hlen & He & Hn)|[HF HN]]; rewrite HF; cbn [rbind].
    - destruct (entry_acc d di Hc Hlen) as (_ & Ed & Es & t & f & Eloc). rewrite Es. cbn [rbind]. rewrite Eloc. cbn [rbind ObjectID].
      destruct (target_ok o dir di HT He) as [HT' Hd'].
      assert (EB : (if k_type (di_location di) =? 132 then path_loop fuel b gen (k_objectid (di_location di)) FirstFreeObjectID rest (Some d)
                    else path_loop fuel b gen o (k_objectid (di_location di)) rest (Some d)) =
                   path_loop fuel b gen (fst (target o di)) (snd (target o di)) rest (Some d))
        by (unfold target; destruct (k_type (di_location di) =? 132); reflexivity).
      rewrite EB. clear EB. destruct rest as [|c2 rest].
      + left. exists d, di. split; [reflexivity|]. split; [exact Hc|]. rewrite <- Hn. constructor. exact He.
      + destruct (IH ltac:(discriminate) _ _ (Some d) HT' Hd') as [(d' & di' & HP & Hc' & HL)|[HP HNL]]; rewrite HP.
        * left. exists d', di'. split; [reflexivity|]. split; [exact Hc'|]. rewrite <- Hn. apply leads_step; [exact He| |exact HL].
          destruct (Z.eq_dec (di_type di) 2) as [E|NE]; [exact E|exfalso]. destruct (t_leaf _ _ _ TO o dir di HT He NE) as [H1 H2].
          destruct (leads_cons_inv _ _ _ _ _ HL) as (dx & Hx & _). unfold target in Hx. apply Z.eqb_neq in H1. rewrite H1 in Hx. exact (H2 dx Hx).
        * right. split; [reflexivity|]. intros di' HL. destruct (leads_cons_inv _ _ _ _ _ HL) as (dx & Hx & Hnx & [[E _]|[_ HL']]); [discriminate|].
          assert (dx = di) by (apply (t_uniq _ _ _ TO o dir dx di HT Hx He); congruence). subst dx. exact (HNL di' HL').
    - right. split; [reflexivity|]. intros di HL. destruct (leads_cons_inv _ _ _ _ _ HL) as (dx & Hx & Hnx & Hr).
      destruct (HN dx Hx Hnx) as [Ht Hlast]. destruct Hr as [[-> _]|[Ht2 _]]; [discriminate|contradiction].
  Qed.
End Find.

(** ** C30 *)
(** in a well-formed tree: the item of the path if there is one, none otherwise.
    The path is written as any number of slashes followed by the components. *)
Theorem C30_path_partial : forall b gen T owner n comps fuel,
  opened b -> is_u64 gen -> tree_ok b gen T -> T owner ->
  comps <> [] -> (forall c, In c comps -> ~ In x2f c) -> hd [] comps <> [] \/ comps = [[]] ->
  (length b + 1 < fuel)%nat ->
  (exists d di, FindDirItemForPath fuel b gen owner (repeat x2f n ++ join comps) = Ok (Some d) /\
     carries d (dir_item_fields di) /\ leads b owner 256 comps di) \/
  (FindDirItemForPath fuel b gen owner (repeat x2f n ++ join comps) = Ok None /\ forall di, ~ leads b owner 256 comps di).
Proof.
  intros b gen T owner n comps fuel Op Hgen TO HT Hne Hs Hh Hfuel. unfold FindDirItemForPath. rewrite comps_of by assumption.
  apply (path_loop_spec b gen T fuel Op Hgen TO Hfuel comps Hne owner FirstFreeObjectID None HT). unfold is_u64, FirstFreeObjectID; lia.
Qed.

(** ** example: two directory levels, a file, a subvolume *)
Definition mkdi (id t ft : Z) (name : list byte) : d_dir_item :=
  {| di_location := {| k_objectid := id; k_type := t; k_offset := 0 |}; di_transid := 9; di_type := ft; di_name := name; di_data := [] |}.
Definition drec (o dir : Z) (di : d_dir_item) : Z * Key * Z * list byte :=
  (o, mkKey dir 84 (NameHash (di_name di)), 7, itemv (ser (dir_item_fields di))).
Definition di_a := mkdi 257 1 2 [x61]. Definition di_s := mkdi 258 132 2 [x73].
Definition di_f := mkdi 259 1 1 [x66]. Definition di_g := mkdi 300 1 1 [x67].
Definition ents30 : list (Z * Z * d_dir_item) := [(5, 256, di_a); (5, 256, di_s); (5, 257, di_f); (258, 256, di_g)].
Definition b30 := mkb (map (fun '(o, dir, di) => drec o dir di) ents30).
Definition T30 (o : Z) : Prop := o = 5 \/ o = 258.
Lemma T30_u o : T30 o -> is_u64 o /\ o < 2^64 - 1.
Proof. intros [->| ->]; unfold is_u64; lia. Qed.
Lemma b30_rec o dir off g v : T30 o -> dir_record b30 o dir off g v ->
  g = 7 /\ exists di, In (o, dir, di) ents30 /\ holds v (dir_item_fields di) /\ zlen (di_name di) <= 255.
Proof.
  intros HT (Hdir & Hof & Hg & Hst). destruct (T30_u o HT) as [Ho Hm].
  apply stored_mkb_owner in Hst; [| |exact Ho|exact Hm|unfold wf_Key; cbn; split; [exact Hdir|split; [unfold is_u8; lia|exact Hof]]|exact Hg].
  2:{ apply wf_items_b. vm_compute. reflexivity. }
  apply in_map_iff in Hst as ([[o' dir'] di] & E & Hin). unfold drec in E.
  injection E as E1 E2 E3 E4 E5. subst. split; [reflexivity|]. exists di. split; [exact Hin|].
  destruct Hin as [[= <- <- <-]|[[= <- <- <-]|[[= <- <- <-]|[[= <- <- <-]|[]]]]]; (split; [apply holds_ok; vm_compute; reflexivity|cbn; lia]).
Qed.
Lemma b30_entry o dir di : T30 o -> entry b30 o dir di -> In (o, dir, di) ents30.
Proof.
  intros HT (off & g & v & HR & Hh). destruct (b30_rec o dir off g v HT HR) as (_ & di' & Hin & Hh' & _).
  rewrite (holds_inj v di di' Hh Hh'). exact Hin.
Qed.
Lemma b30_has o dir di : In (o, dir, di) ents30 -> entry b30 o dir di.
Proof.
  intros Hin. exists (NameHash (di_name di)), 7, (itemv (ser (dir_item_fields di))). pose proof (C31_fits (di_name di)) as HN.
  assert (Hn : is_u64 (NameHash (di_name di))) by (unfold is_u64, is_u32 in *; lia). split; [split; [|split; [exact Hn|split; [unfold is_u64; lia|]]]|].
  - destruct Hin as [[= <- <- <-]|[[= <- <- <-]|[[= <- <- <-]|[[= <- <- <-]|[]]]]]; unfold is_u64; lia.
  - unfold stored. clear HN Hn. destruct Hin as [[= <- <- <-]|[[= <- <- <-]|[[= <- <- <-]|[[= <- <- <-]|[]]]]]; vm_compute; auto.
  - destruct Hin as [[= <- <- <-]|[[= <- <- <-]|[[= <- <- <-]|[[= <- <- <-]|[]]]]]; apply holds_ok; vm_compute; reflexivity.
Qed.
Example C30_ex : opened b30 /\ tree_ok b30 (2^64 - 1) T30 /\ T30 5 /\
  leads b30 5 256 [[x61]; [x66]] di_f /\ leads b30 5 256 [[x73]; [x67]] di_g /\ (forall di, ~ leads b30 5 256 [[x61]; [x67]] di) /\
  exists d, FindDirItemForPath 10 b30 (2^64-1) 5 [x2f; x73; x2f; x67] = Ok (Some d) /\ carries d (dir_item_fields di_g).
Proof.
  assert (Op : opened b30) by (apply opened_ok; vm_compute; reflexivity).
  assert (TO : tree_ok b30 (2^64 - 1) T30).
  { constructor.
    - exact T30_u.
    - intros o HT. split; [apply data_ok_ok; [apply T30_u; exact HT|destruct HT as [->| ->]; vm_compute; reflexivity]|].
      apply no_max_gen_ok; [apply T30_u; exact HT|destruct HT as [->| ->]; vm_compute; reflexivity].
    - intros o dir HT _. left. apply no_alias_ok; [apply T30_u; exact HT|apply Op|destruct HT as [->| ->]; vm_compute; reflexivity].
    - intros o dir _. left. reflexivity.
    - intros o dir off g v HT HR. destruct (b30_rec _ _ _ _ _ HT HR) as (_ & di & _ & H). exists di. exact H.
    - intros o dir off g v off' g' v' HT HR HR'. destruct (b30_rec _ _ _ _ _ HT HR) as (-> & _). destruct (b30_rec _ _ _ _ _ HT HR') as (-> & _). reflexivity.
    - intros o dir di di' HT He He' Hn. apply b30_entry in He; [|exact HT]. apply b30_entry in He'; [|exact HT].
      destruct He as [[= <- <- <-]|[[= <- <- <-]|[[= <- <- <-]|[[= <- <- <-]|[]]]]]; destruct He' as [E|[E|[E|[E|[]]]]]; try discriminate E;
        (pose proof (f_equal snd E) as E'; cbn [snd] in E'; subst di'; first [reflexivity|discriminate Hn]).
    - intros o dir di HT He Hn. apply b30_entry in He; [|exact HT].
      destruct He as [[= <- <- <-]|[[= <- <- <-]|[[= <- <- <-]|[[= <- <- <-]|[]]]]]; try (exfalso; apply Hn; reflexivity); (split; [discriminate|]);
        intros di' He'; apply b30_entry in He'; try exact HT; destruct He' as [E|[E|[E|[E|[]]]]]; discriminate E.
    - intros o dir di HT He Hk. apply b30_entry in He; [|exact HT]. 
      destruct He as [[= <- <- <-]|[[= <- <- <-]|[[= <- <- <-]|[[= <- <- <-]|[]]]]]; try discriminate. right. reflexivity. }
  split; [exact Op|]. split; [exact TO|]. split; [left; reflexivity|].
  split; [|split; [|split]].
  - apply (leads_step b30 5 256 di_a); [apply b30_has; cbn; auto|reflexivity|]. apply (leads_last b30 5 257 di_f). apply b30_has; cbn; auto.
  - apply (leads_step b30 5 256 di_s); [apply b30_has; cbn; auto|reflexivity|]. apply (leads_last b30 258 256 di_g). apply b30_has; cbn; auto.
  - intros di H. destruct (leads_cons_inv _ _ _ _ _ _ H) as (di1 & H1 & N1 & [[E _]|[_ H2]]); [discriminate|].
    apply b30_entry in H1; [|left; reflexivity]. destruct H1 as [[= <- ]|[[= <-]|[[= <- <- <-]|[[= <- <- <-]|[]]]]]; try discriminate.
    destruct (leads_cons_inv _ _ _ _ _ _ H2) as (di2 & H3 & N2 & _). apply b30_entry in H3; [|left; reflexivity].
    destruct H3 as [[= <- ]|[[= <-]|[[= <- ]|[[= <- ]|[]]]]]; discriminate.
  - eexists. split; [vm_compute; reflexivity|]. apply carries_whole; [apply fits_b| |]; vm_compute; reflexivity.
Qed.

(** ** refutations of the unconditional property *)
(** btrfs packs entries whose names have the same hash into one record; only
    the first entry of a record is ever found *)
Definition packed_entry (b : bucket) (o dir : Z) (di : d_dir_item) : Prop :=
  exists off g v d pre post, dir_record b o dir off g v /\ valueData v = Ok d /\
    fits (flat_map dir_item_fields (pre ++ di :: post)) /\ s_arr d = ser (flat_map dir_item_fields (pre ++ di :: post)) /\ s_len d = zlen (s_arr d).
Definition v30c := itemv (ser (flat_map dir_item_fields [di_a; di_f])).
Theorem C30_packed_refuted : exists b gen owner name di, opened b /\ packed_entry b owner 256 di /\ di_name di = name /\
  forall fuel, (3 <= fuel)%nat -> FindDirItemForPath fuel b gen owner name = Ok None.
Proof.
  exists (mkb [(5, mkKey 256 84 (NameHash [x61]), 7, v30c)]), (2^64-1), 5, [x66], di_f. split; [apply opened_ok; vm_compute; reflexivity|].
  split; [|split; [reflexivity|]].
  - exists (NameHash [x61]), 7, v30c. eexists. exists [di_a], []. split.
    { split; [unfold is_u64; lia|]. split; [pose proof (C31_fits [x61]); unfold is_u64, is_u32 in *; lia|]. split; [unfold is_u64; lia|].
      unfold stored. vm_compute. auto. }
    split; [vm_compute; reflexivity|]. split; [apply fits_b; vm_compute; reflexivity|]. split; vm_compute; reflexivity.
  - intros fuel Hf. do 3 (destruct fuel as [|fuel]; [lia|]). vm_compute. reflexivity.
Qed.
(** the root directory itself is not found: its path has one empty component *)
Theorem C30_root_refuted : forall b gen T owner n fuel,
  opened b -> is_u64 gen -> tree_ok b gen T -> T owner -> (forall di, entry b owner 256 di -> di_name di <> []) ->
  (length b + 1 < fuel)%nat -> FindDirItemForPath fuel b gen owner (repeat x2f n) = Ok None.
Proof.
  intros b gen T owner n fuel Op Hgen TO HT HN Hfuel.
  destruct (C30_path_partial b gen T owner n [[]] fuel Op Hgen TO HT ltac:(discriminate)) as [(d & di & _ & _ & HL)|[H _]]; try assumption.
  - intros c [<-|[]] [].
  - right. reflexivity.
  - exfalso. destruct (leads_cons_inv _ _ _ _ _ _ HL) as (dx & Hx & Hnx & _). exact (HN dx Hx Hnx).
  - cbn [join] in H. rewrite app_nil_r in H. exact H.
Qed.
Print Assumptions C30_path_partial. Print Assumptions C30_packed_refuted. Print Assumptions C30_root_refuted.
