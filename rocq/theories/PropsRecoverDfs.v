(** C50: recover visits every directory once and terminates. *)
From Verif Require Import Go GoProofs Layout KeyFmt Bolt Store Fs Recover RecoverProofs SpecFs PathProofs PropsRecoverPaths.
From Coq Require Import ArithRing ZifyBool ZifyNat ZifyN.
Ltac Zify.zify_post_hook ::= Z.div_mod_to_equations.

Lemma key_in_spec k v : key_in k v = true <-> In k v.
Proof.
  unfold key_in. rewrite existsb_exists. split.
  - intros (x & Hx & HB). apply andb_true_iff in HB as [A B]. apply Z.eqb_eq in A, B. destruct x, k. cbn [fst snd] in *. subst. exact Hx.
  - intros H. exists k. split; [exact H|]. rewrite !Z.eqb_refl. reflexivity.
Qed.
Lemma key_in_false k v : key_in k v = false <-> ~ In k v.
Proof. rewrite <- key_in_spec. destruct (key_in k v); split; congruence. Qed.
Lemma listed_app a b : listed (a ++ b) = listed a ++ listed b.
Proof. induction a as [|e a IH]; [reflexivity|]. destruct e; cbn [app listed]; rewrite IH; reflexivity. Qed.
Lemma listed_none evs : Forall (fun e => match e with EvList _ _ => False | _ => True end) evs -> listed evs = [].
Proof. induction 1 as [|e evs H _ IH]; [reflexivity|]. destruct e; try contradiction; exact IH. Qed.
(** the file operations read no directory and warn about none *)
Definition quiet (e : event) : Prop := match e with EvList _ _ | EvWarn _ _ => False | _ => True end.
Lemma quiet_listed evs : Forall quiet evs -> listed evs = [].
Proof. intros H. apply listed_none. revert H. apply Forall_impl. intros [] HQ; try contradiction; exact Logic.I. Qed.
Lemma quiet_mkall E s : keeps (logs quiet) (MkdirAll E s).
Proof.
  apply (keeps_mkall (logs quiet) (logs_refl quiet) (logs_trans quiet) E (fun _ => True)); [auto| | | |exact Logic.I]; intros s1 _; apply logs_syscall; intros; exact Logic.I.
Qed.
Lemma quiet_file cfuel E dev q cl o i s : keeps (logs quiet) (recoverFile cfuel E dev q cl o i s).
Proof.
  apply keeps_file; [apply logs_refl|apply logs_trans|intros; apply logs_read; intros; exact Logic.I| | | |]; intros; apply logs_syscall; intros; exact Logic.I.
Qed.
Lemma quiet_link E dev q cl o i s : keeps (logs quiet) (recoverSymlink E dev q cl o i s).
Proof.
  apply keeps_symlink; [apply logs_refl|apply logs_trans|intros; apply logs_read; intros; exact Logic.I| | |]; intros; apply logs_syscall; intros; exact Logic.I.
Qed.

(** what a piece of the walk that started with [v] visited has done: [v'] visited
    afterwards (if it returned) *)
Definition walked (q : queries) (v : list (Z * Z)) (evs : list event) (v' : option (list (Z * Z))) : Prop :=
  NoDup (listed evs) /\ (forall k, In k (listed evs) -> ~ In k v) /\
  match v' with
  | Some v' =>
      incl v v' /\ incl (listed evs) v' /\
      (forall k, In k v' -> In k v \/ In k (listed evs) \/ exists p, In (EvWarn WDir p) evs) /\
      (forall k k', In k (listed evs) -> edge q k k' -> In k' v')
  | None => True
  end.
Lemma walked_nil q v : walked q v [] (Some v).
Proof. split; [constructor|]. split; [intros k []|]. split; [apply incl_refl|]. split; [intros k []|]. split; [auto|intros k k' []]. Qed.
Lemma walked_quiet q v evs : listed evs = [] -> walked q v evs (Some v).
Proof. intros E. unfold walked. rewrite E. split; [constructor|]. split; [intros k []|]. split; [apply incl_refl|]. split; [intros k []|]. split; [auto|intros k k' []]. Qed.
Lemma walked_app q v1 v2 v3 e1 e2 : walked q v1 e1 (Some v2) -> walked q v2 e2 v3 -> walked q v1 (e2 ++ e1) v3.
Proof.
  intros (N1 & D1 & I1 & L1 & K1 & C1) (N2 & D2 & H2). unfold walked. rewrite listed_app. split; [|split].
  - clear -N1 N2 D2 L1. induction (listed e2) as [|k l IH]; [exact N1|]. inversion N2 as [|? ? HA HB]; subst. cbn [app]. constructor; [|apply IH; [exact HB|intros k' Hk'; apply D2; right; exact Hk']].
    intros H. apply in_app_or in H as [H|H]; [exact (HA H)|]. apply (D2 k (or_introl eq_refl)). exact (L1 _ H).
  - intros k Hk Hv. apply in_app_or in Hk as [Hk|Hk]; [exact (D2 k Hk (I1 _ Hv))|exact (D1 k Hk Hv)].
  - destruct v3 as [v3|]; [|exact Logic.I]. destruct H2 as (I2 & L2 & K2 & C2). split; [|split; [|split]].
    + intros k Hk. apply I2, I1, Hk.
    + apply incl_app; [exact L2|]. intros k Hk. apply I2, L1, Hk.
    + intros k Hk. destruct (K2 k Hk) as [H|[H|[p H]]]; [|right; left; apply in_or_app; left; exact H|right; right; exists p; apply in_or_app; left; exact H].
      destruct (K1 k H) as [H'|[H'|[p H']]]; [left; exact H'|right; left; apply in_or_app; right; exact H'|right; right; exists p; apply in_or_app; right; exact H'].
    + intros k k' Hk He. apply in_app_or in Hk as [Hk|Hk]; [exact (C2 k k' Hk He)|apply I2; exact (C1 k k' Hk He)].
Qed.
Definition ret_of {A} (o : out A) : option A := match o with Ret a => Some a | _ => None end.
Definition steps {A} (m : M A) (P : list event -> option A -> Prop) : Prop := forall w w' o, m w = (w', o) -> exists evs, w_log w' = evs ++ w_log w /\ P evs (ret_of o).
Lemma names_dir_classify o dest di k' a : names_dir o di k' -> classify o dest di = Ok a -> exists p, a = ADir (fst k') (snd k') p.
Proof.
  intros (name & t & loc & H1 & H2 & H3 & H4 & H5) H. unfold classify in H. rewrite H1 in H. cbn [rbind] in H. rewrite H2 in H. cbv zeta in H.
  unfold DirItem_IsDir, DirItem_IsSubvolume in H. rewrite H3, H4 in H. cbn [rbind] in H. exists (Join dest name). destruct H5 as [[E ->]|(E & -> & ->)].
  - rewrite E in H. change (RootItemKey =? RootItemKey) with true in H. destruct (t =? FtDir); cbn [rbind] in H; injection H as <-; reflexivity.
  - change (FtDir =? FtDir) with true in H. cbn [rbind] in H. replace (KType loc =? RootItemKey) with false in H by (symmetry; apply Z.eqb_neq; exact E). injection H as <-. reflexivity.
Qed.
Section Dfs.
  Variables (cfuel : nat) (E : env) (dev : readerAt) (q : queries) (clobber : bool).
  (** a call of recoverDir: also the directory itself is visited, and listed unless it fails *)
  Definition called (v : list (Z * Z)) (k : Z * Z) (evs : list event) (r : option (list (Z * Z) * bool)) : Prop :=
    NoDup (listed evs) /\ (forall x, In x (listed evs) -> ~ In x v) /\
    match r with
    | Some (v', ok) =>
        In k v' /\ incl v v' /\ incl (listed evs) v' /\
        (forall x, In x v' -> In x v \/ In x (listed evs) \/ (ok = false \/ exists p, In (EvWarn WDir p) evs)) /\
        (forall x x', In x (listed evs) -> edge q x x' -> In x' v')
    | None => True
    end.
  Lemma called_warn v k evs v' ok p : called v k evs (Some (v', ok)) -> walked q v (if ok then evs else EvWarn WDir p :: evs) (Some v') /\ In k v'.
  Proof.
    intros (N & D & K & I1 & L & A & C). split; [|exact K]. unfold walked.
    assert (EL : listed (if ok then evs else EvWarn WDir p :: evs) = listed evs) by (destruct ok; reflexivity). rewrite EL.
    split; [exact N|]. split; [exact D|]. split; [exact I1|]. split; [exact L|]. split; [|exact C].
    intros x Hx. destruct (A x Hx) as [H|[H|[->|[p' H]]]]; [left; exact H|right; left; exact H|right; right; exists p; left; reflexivity|].
    right; right. exists p'. destruct ok; [exact H|right; exact H].
  Qed.
  Lemma walk_call {X} (rec : M (list (Z * Z) * bool)) v k p (f : list (Z * Z) -> M X) (Q : list event -> option X -> Prop) :
    steps rec (called v k) ->
    (forall evs v', walked q v evs (Some v') -> In k v' -> forall w w' o, f v' w = (w', o) -> exists evs2, w_log w' = evs2 ++ w_log w /\ Q (evs2 ++ evs) (ret_of o)) ->
    (forall evs, walked q v evs None -> Q evs None) ->
    steps (v <~ (' (v, ok) <~ rec ;; _ <~ (if ok : bool then ret tt else emit (EvWarn WDir p)) ;; ret v) ;; f v) Q.
  Proof.
    intros HR Hf HN w w' o H. unfold bind in H. destruct (rec w) as [w1 o1] eqn:ER. destruct (HR _ _ _ ER) as (e1 & L1 & C1).
    destruct o1 as [[v' ok]| | |]; cbn [ret_of] in C1; cbv beta iota in H.
    2-4: injection H as <- <-; exists e1; split; [exact L1|]; apply HN; destruct C1 as (A & B & _); split; [exact A|split; [exact B|exact Logic.I]].
    destruct (called_warn v k e1 v' ok p C1) as [HW HK]. destruct ok; unfold ret, emit in H; cbv beta iota in H.
    - destruct (Hf _ _ HW HK _ _ _ H) as (e2 & L2 & HQ). exists (e2 ++ e1). rewrite L2, L1, app_assoc. split; [reflexivity|exact HQ].
    - destruct (Hf _ _ HW HK _ _ _ H) as (e2 & L2 & HQ). exists (e2 ++ EvWarn WDir p :: e1). rewrite L2. cbn [w_log]. rewrite L1, <- app_assoc. split; [reflexivity|exact HQ].
  Qed.
  Lemma walk_quiet {A} (m : M A) (f : A -> M (list (Z * Z))) v (Q : list event -> option (list (Z * Z)) -> Prop) :
    keeps (logs quiet) m ->
    (forall a evs, listed evs = [] -> forall w w' o, f a w = (w', o) -> exists evs2, w_log w' = evs2 ++ w_log w /\ Q (evs2 ++ evs) (ret_of o)) ->
    (forall evs, walked q v evs None -> Q evs None) ->
    steps (bind m f) Q.
  Proof.
    intros HK Hf HN w w' o H. unfold bind in H. destruct (m w) as [w1 o1] eqn:EM. destruct (HK _ _ _ EM) as (e1 & L1 & F1). apply quiet_listed in F1.
    destruct o1 as [a| | |].
    2-4: injection H as <- <-; exists e1; split; [exact L1|]; apply HN; unfold walked; rewrite F1; split; [constructor|split; [intros k []|exact Logic.I]].
    destruct (Hf a e1 F1 _ _ _ H) as (e2 & L2 & HQ). exists (e2 ++ e1). rewrite L2, L1, app_assoc. split; [reflexivity|exact HQ].
  Qed.
  Lemma listed_warn ok k p : forall w w', (if ok : bool then ret tt else emit (EvWarn k p)) w = (w', Ret tt) -> exists e, w_log w' = e ++ w_log w /\ listed e = [].
  Proof. intros w w' H. destruct ok; [unfold ret in H; injection H as <-; exists []; auto|unfold emit in H; injection H as <-; exists [EvWarn k p]; auto]. Qed.
  Lemma items_walked rec owner dest :
    (forall o d p v, steps (rec o d p v) (called v (o, d))) ->
    forall l v, steps (items_loop rec cfuel E dev q clobber owner dest l v)
      (fun evs r => walked q v evs r /\ match r with Some v' => forall e k', In e l -> names_dir owner (snd e) k' -> In k' v' | None => True end).
  Proof.
    intros HR. induction l as [|[k di] l IH]; intros v; cbn [items_loop].
    - intros w w' o H. unfold ret in H. injection H as <- <-. exists []. split; [reflexivity|]. split; [apply walked_nil|intros e k' []].
    - set (Q := fun evs r => _). intros w w' o H. unfold bind at 1, lift at 1 in H. destruct (classify owner dest di) as [a| |] eqn:EC.
      2-3: injection H as <- <-; exists []; split; [reflexivity|]; subst Q; cbv beta; split; [split; [constructor|split; [intros x []|exact Logic.I]]|exact Logic.I].
      assert (HN : forall evs, walked q v evs None -> Q evs None) by (intros evs HW; split; [exact HW|exact Logic.I]).
      assert (Hrest : forall evs v', walked q v evs (Some v') -> (forall k', names_dir owner di k' -> In k' v') -> forall w w' o,
         items_loop rec cfuel E dev q clobber owner dest l v' w = (w', o) -> exists evs2, w_log w' = evs2 ++ w_log w /\ Q (evs2 ++ evs) (ret_of o)).
      { intros evs v' HW Hdi w0 w0' o0 H0. destruct (IH v' _ _ _ H0) as (e2 & L2 & W2 & C2). exists e2. split; [exact L2|]. split; [exact (walked_app q _ _ _ _ _ HW W2)|].
        destruct (ret_of o0) as [v3|]; [|exact Logic.I]. intros e k' [<-|Hin] Hn; [|exact (C2 e k' Hin Hn)]. destruct W2 as (_ & _ & I2 & _). apply I2, Hdi, Hn. }
      assert (Hno : (forall o d p, a <> ADir o d p) -> forall k', names_dir owner di k' -> In k' v).
      { intros HA k' Hn. destruct (names_dir_classify owner dest di k' a Hn EC) as (p & ->). destruct (HA _ _ _ eq_refl). }
      destruct a as [|o' d' p|i p|i p].
      + unfold bind, ret in H. destruct (Hrest [] v (walked_nil q v) (Hno ltac:(discriminate)) _ _ _ H) as (e2 & L2 & HQ). rewrite app_nil_r in HQ. exists e2. auto.
      + refine (walk_call (rec o' d' p v) v (o', d') p _ Q (HR o' d' p v) _ HN w w' o H). intros evs v' HW HK. apply Hrest; [exact HW|].
        intros k' Hn. destruct (names_dir_classify owner dest di k' _ Hn EC) as (p' & EA). injection EA as E1 E2 _. destruct k'. cbn [fst snd] in *. subst. exact HK.
      + assert (G : steps (ok <~ recoverFile cfuel E dev q clobber owner i p ;; _ <~ (if ok : bool then ret tt else emit (EvWarn WFile p)) ;; ret v) (fun evs r => listed evs = [] /\ (r = Some v \/ r = None))).
        { clear -E. intros w w' o H. unfold bind in H. destruct (recoverFile _ _ _ _ _ _ _ _ w) as [w1 o1] eqn:EM. destruct (quiet_file _ _ _ _ _ _ _ _ _ _ _ EM) as (e1 & L1 & F1). apply quiet_listed in F1.
          destruct o1 as [[]| | |]; unfold ret, emit in H; cbv beta iota in H; injection H as <- <-; [exists e1; auto|exists (EvWarn WFile p :: e1); cbn [w_log]; rewrite L1; auto|exists e1; auto|exists e1; auto|exists e1; auto]. }
        unfold bind at 1 in H. destruct ((ok <~ recoverFile cfuel E dev q clobber owner i p ;; _ <~ (if ok : bool then ret tt else emit (EvWarn WFile p)) ;; ret v) w) as [w1 o1] eqn:EM.
        destruct (G _ _ _ EM) as (e1 & L1 & F1 & HO). pose proof (walked_quiet q v e1 F1) as HW. destruct o1 as [v1| | |]; cbn [ret_of] in HO.
        2-4: injection H as <- <-; exists e1; split; [exact L1|]; apply HN; destruct HW as (A & B & _); split; [exact A|split; [exact B|exact Logic.I]].
        destruct HO as [HO|HO]; [|discriminate]. injection HO as ->. destruct (Hrest _ _ HW (Hno ltac:(discriminate)) _ _ _ H) as (e2 & L2 & HQ).
        exists (e2 ++ e1). rewrite L2, L1, app_assoc. auto.
      + assert (G : steps (ok <~ recoverSymlink E dev q clobber owner i p ;; _ <~ (if ok : bool then ret tt else emit (EvWarn WLink p)) ;; ret v) (fun evs r => listed evs = [] /\ (r = Some v \/ r = None))).
        { clear -E. intros w w' o H. unfold bind in H. destruct (recoverSymlink _ _ _ _ _ _ _ w) as [w1 o1] eqn:EM. destruct (quiet_link _ _ _ _ _ _ _ _ _ _ EM) as (e1 & L1 & F1). apply quiet_listed in F1.
          destruct o1 as [[]| | |]; unfold ret, emit in H; cbv beta iota in H; injection H as <- <-; [exists e1; auto|exists (EvWarn WLink p :: e1); cbn [w_log]; rewrite L1; auto|exists e1; auto|exists e1; auto|exists e1; auto]. }
        unfold bind at 1 in H. destruct ((ok <~ recoverSymlink E dev q clobber owner i p ;; _ <~ (if ok : bool then ret tt else emit (EvWarn WLink p)) ;; ret v) w) as [w1 o1] eqn:EM.
        destruct (G _ _ _ EM) as (e1 & L1 & F1 & HO). pose proof (walked_quiet q v e1 F1) as HW. destruct o1 as [v1| | |]; cbn [ret_of] in HO.
        2-4: injection H as <- <-; exists e1; split; [exact L1|]; apply HN; destruct HW as (A & B & _); split; [exact A|split; [exact B|exact Logic.I]].
        destruct HO as [HO|HO]; [|discriminate]. injection HO as ->. destruct (Hrest _ _ HW (Hno ltac:(discriminate)) _ _ _ H) as (e2 & L2 & HQ).
        exists (e2 ++ e1). rewrite L2, L1, app_assoc. auto.
  Qed.
  Lemma dir_called : forall fuel o d dest v, steps (recoverDir fuel cfuel E dev q clobber o d dest v) (called v (o, d)).
  Proof.
    induction fuel as [|fuel IH]; intros o d dest v w w' r H; cbn [recoverDir] in H.
    - injection H as <- <-. exists []. split; [reflexivity|]. split; [constructor|split; [intros x []|exact Logic.I]].
    - destruct (key_in (o, d) v) eqn:EK.
      + unfold ret in H. injection H as <- <-. exists []. split; [reflexivity|]. apply key_in_spec in EK. split; [constructor|]. split; [intros x []|]. cbn [ret_of].
        split; [exact EK|]. split; [apply incl_refl|]. split; [intros x []|]. split; [auto|intros x x' []].
      + apply key_in_false in EK. cbv zeta in H. unfold bind at 1 in H. destruct (MkdirAll E dest w) as [w1 o1] eqn:EM. destruct (quiet_mkall _ _ _ _ _ EM) as (e1 & L1 & F1). apply quiet_listed in F1.
        destruct o1 as [ok| | |].
        2-4: injection H as <- <-; exists e1; split; [exact L1|]; unfold called; rewrite F1; split; [constructor|split; [intros x []|exact Logic.I]].
        destruct ok; cbn [negb] in H.
        2: { unfold ret in H. injection H as <- <-. exists e1. split; [exact L1|]. unfold called. rewrite F1. cbn [ret_of]. split; [constructor|]. split; [intros x []|]. split; [left; reflexivity|].
             split; [intros x Hx; right; exact Hx|]. split; [intros x []|]. split; [auto|intros x x' []]. }
        unfold bind at 1, emit at 1 in H. unfold bind at 1, lift at 1 in H.
        assert (C0 : listed (EvList o d :: e1) = [(o, d)]) by (cbn [listed]; rewrite F1; reflexivity).
        assert (HP : forall evs, (exists e, evs = e ++ EvList o d :: e1 /\ walked q ((o, d) :: v) e None) -> called v (o, d) evs None).
        { intros evs (e & -> & A & B & _). unfold called. rewrite listed_app, C0. split; [|split; [|exact Logic.I]].
          - apply (NoDup_Add (a := (o, d)) (l := listed e)); [rewrite <- (app_nil_r (listed e)) at 1; apply Add_app|]. split; [exact A|]. intros Hin. apply (B _ Hin). left. reflexivity.
          - intros x Hx. apply in_app_or in Hx as [Hx|[<-|[]]]; [intros Hv; apply (B x Hx); right; exact Hv|exact EK]. }
        destruct (st_end (q_dirItems q o d)) as [[]| |].
        2-3: injection H as <- <-; exists (EvList o d :: e1); cbn [w_log]; rewrite L1; split; [reflexivity|]; apply HP; exists []; split; [reflexivity|split; [constructor|split; [intros x []|exact Logic.I]]].
        unfold bind at 1 in H. destruct (items_loop _ _ _ _ _ _ _ _ _ _ _) as [w2 o2] eqn:EI in H.
        destruct (items_walked _ _ _ (fun o d p v => IH o d p v) _ _ _ _ _ EI) as (e2 & L2 & W2 & C2). cbn [w_log] in L2. rewrite L1 in L2.
        destruct o2 as [v2| | |]; cbn [ret_of] in W2, C2.
        2-4: injection H as <- <-; exists (e2 ++ EvList o d :: e1); rewrite L2, <- app_assoc; split; [reflexivity|]; apply HP; exists e2; auto.
        unfold ret in H. injection H as <- <-. exists (e2 ++ EvList o d :: e1). rewrite L2, <- app_assoc. split; [reflexivity|]. cbn [ret_of].
        destruct (HP (e2 ++ EvList o d :: e1)) as (N & D & _). { exists e2. split; [reflexivity|]. destruct W2 as (A & B & _). split; [exact A|split; [exact B|exact Logic.I]]. }
        destruct W2 as (A & B & I2 & Li2 & K2 & E2). split; [exact N|]. split; [exact D|]. rewrite listed_app, C0.
        split; [apply I2; left; reflexivity|]. split; [intros x Hx; apply I2; right; exact Hx|].
        split; [apply incl_app; [exact Li2|]; intros x [<-|[]]; apply I2; left; reflexivity|]. split.
        * intros x Hx. destruct (K2 x Hx) as [[<-|Hv]|[Hl|[p Hp]]]; [right; left; apply in_or_app; right; left; reflexivity|left; exact Hv|right; left; apply in_or_app; left; exact Hl|].
          right; right; right. exists p. apply in_or_app. left. exact Hp.
        * intros x x' Hx He. apply in_app_or in Hx as [Hx|[<-|[]]]; [exact (E2 x x' Hx He)|]. destruct He as (e & Hin & Hn). exact (C2 e x' Hin Hn).
  Qed.
  Lemma subvols_walked fuel dest fin : forall l v, steps (subvols_loop fuel cfuel E dev q clobber dest l fin v)
    (fun evs r => walked q v evs r /\ match r with Some v' => forall e, In e l -> In (ObjectID (ik_Key (fst e)), FirstFreeObjectID) v' | None => True end).
  Proof.
    induction l as [|[k di] l IH]; intros v; cbn [subvols_loop].
    - intros w w' o H. unfold bind, lift in H. destruct fin as [u| |]; [unfold ret in H|..]; injection H as <- <-; exists []; (split; [reflexivity|]); cbn [ret_of].
      + split; [apply walked_nil|intros e []].
      + split; [split; [constructor|split; [intros x []|exact Logic.I]]|exact Logic.I].
      + split; [split; [constructor|split; [intros x []|exact Logic.I]]|exact Logic.I].
    - cbv zeta. set (o := ObjectID (ik_Key k)) in *. set (Q := fun evs r => _).
      assert (Hrest : forall evs v', walked q v evs (Some v') -> In (o, FirstFreeObjectID) v' -> forall w w' r,
         subvols_loop fuel cfuel E dev q clobber dest l fin v' w = (w', r) -> exists evs2, w_log w' = evs2 ++ w_log w /\ Q (evs2 ++ evs) (ret_of r)).
      { intros evs v' HW Hdi w0 w0' o0 H0. destruct (IH v' _ _ _ H0) as (e2 & L2 & W2 & C2). exists e2. split; [exact L2|]. split; [exact (walked_app q _ _ _ _ _ HW W2)|].
        destruct (ret_of o0) as [v3|]; [|exact Logic.I]. intros e [<-|Hin]; [|exact (C2 e Hin)]. destruct W2 as (_ & _ & I2 & _). apply I2, Hdi. }
      destruct (key_in (o, FirstFreeObjectID) v) eqn:EK.
      + intros w w' r H. unfold bind, ret in H. apply key_in_spec in EK. destruct (Hrest [] v (walked_nil q v) EK _ _ _ H) as (e2 & L2 & HQ). rewrite app_nil_r in HQ. exists e2. auto.
      + apply (walk_call _ v (o, FirstFreeObjectID) (subvol_dest dest o)); [apply dir_called|exact Hrest|]. intros evs HW. split; [exact HW|exact Logic.I].
  Qed.
End Dfs.

(** the whole command *)
Lemma recover_walked fuel cfuel E dev q clobber dest w w' o : doRecoverFiles fuel cfuel E dev q clobber dest w = (w', o) ->
  exists evs, w_log w' = evs ++ w_log w /\ NoDup (listed evs) /\
    match o with
    | Ret (true, v) => walked q [] evs (Some v) /\ (forall k, start q k -> In k v)
    | _ => True
    end.
Proof.
  unfold doRecoverFiles. unfold bind at 1. destruct (MkdirAll E dest w) as [w1 o1] eqn:EM. destruct (quiet_mkall _ _ _ _ _ EM) as (e1 & L1 & F1). apply quiet_listed in F1.
  destruct o1 as [ok| | |].
  2-4: intros H; injection H as <- <-; exists e1; rewrite F1; split; [exact L1|split; [constructor|exact Logic.I]].
  destruct ok; cbn [negb]; intros H.
  2: { unfold bind, emit, ret in H. injection H as <- <-. exists (EvWarn WDir dest :: e1). cbn [w_log listed]. rewrite F1, L1. split; [reflexivity|split; [constructor|exact Logic.I]]. }
  set (Q := fun evs (r : option (bool * list (Z * Z))) => NoDup (listed evs) /\ match r with Some (true, v) => walked q [] evs (Some v) /\ (forall k, start q k -> In k v) | _ => True end).
  assert (G : steps (' (v, ok) <~ recoverDir fuel cfuel E dev q clobber FSTreeObjectID FirstFreeObjectID dest [] ;;
    _ <~ (if ok : bool then ret tt else emit (EvWarn WDir dest)) ;;
    v <~ subvols_loop fuel cfuel E dev q clobber dest (st_items (q_subvolumes q)) (st_end (q_subvolumes q)) v ;; ret (true, v)) Q).
  { intros w0 w0' r H0. 
    pose proof (walk_call q (recoverDir fuel cfuel E dev q clobber FSTreeObjectID FirstFreeObjectID dest []) [] (FSTreeObjectID, FirstFreeObjectID) dest
      (fun v => v <~ subvols_loop fuel cfuel E dev q clobber dest (st_items (q_subvolumes q)) (st_end (q_subvolumes q)) v ;; ret (true, v)) Q (dir_called cfuel E dev q clobber fuel _ _ dest [])) as WC.
    refine (WC _ _ w0 w0' r _).
    - intros evs v' HW HK w2 w2' r2 H2. unfold bind in H2. destruct (subvols_loop _ _ _ _ _ _ _ _ _ _ w2) as [w3 o3] eqn:ES.
      destruct (subvols_walked _ _ _ _ _ _ _ _ _ _ _ _ _ ES) as (e3 & L3 & W3 & C3). pose proof (walked_app q _ _ _ _ _ HW W3) as WA.
      exists e3. destruct o3 as [v3| | |]; cbn [ret_of] in *; unfold ret in H2; injection H2 as <- <-; (split; [exact L3|]); (split; [exact (proj1 WA)|]); cbn [ret_of]; [|exact Logic.I|exact Logic.I|exact Logic.I].
      split; [exact WA|]. intros k [->|(e & Hin & ->)]; [destruct W3 as (_ & _ & I3 & _); apply I3, HK|exact (C3 e Hin)].
    - intros evs HW. split; [exact (proj1 HW)|exact Logic.I].
    - rewrite <- H0. unfold bind. destruct (recoverDir _ _ _ _ _ _ _ _ _ _ w0) as [w9 [[v9 ok9]| | |]]; try reflexivity. destruct ok9; reflexivity. }
  destruct (G _ _ _ H) as (e2 & L2 & N2 & H2). exists (e2 ++ e1). rewrite listed_app, F1, app_nil_r, L2, L1, app_assoc. split; [reflexivity|]. split; [exact N2|].
  destruct o as [[[] v]| | |]; try exact Logic.I. cbn [ret_of] in H2. destruct H2 as [W2 S2]. split; [|exact S2].
  exact (walked_app q [] [] (Some v) e1 e2 (walked_quiet q [] e1 F1) W2).
Qed.
(** C50: no directory is processed twice, on any directory graph, whatever fails
    and wherever the command stops *)
Theorem C50_once fuel cfuel E dev q clobber dest w w' o : doRecoverFiles fuel cfuel E dev q clobber dest w = (w', o) ->
  exists evs, w_log w' = evs ++ w_log w /\ NoDup (listed evs).
Proof. intros H. destruct (recover_walked _ _ _ _ _ _ _ _ _ _ H) as (evs & A & B & _). exists evs. auto. Qed.
(** C50: if the command ends and does not report that a directory could not be
    recovered, every directory reachable from the main tree or a subvolume has
    been processed *)
Theorem C50_all_reachable_partial fuel cfuel E dev q clobber dest w w' v : doRecoverFiles fuel cfuel E dev q clobber dest w = (w', Ret (true, v)) ->
  exists evs, w_log w' = evs ++ w_log w /\
    ((forall p, ~ In (EvWarn WDir p) evs) -> forall k, reachable q k -> In k (listed evs)).
Proof.
  intros H. destruct (recover_walked _ _ _ _ _ _ _ _ _ _ H) as (evs & A & _ & (_ & _ & I1 & L1 & K1 & C1) & S1). exists evs. split; [exact A|]. intros HN.
  assert (HV : forall k, In k v -> In k (listed evs)) by (intros k Hk; destruct (K1 k Hk) as [[]|[Hl|[p Hp]]]; [exact Hl|destruct (HN p Hp)]).
  intros k Hr. apply HV. induction Hr as [k Hs|k k' _ IH He]; [exact (S1 k Hs)|]. exact (C1 k k' (HV _ IH) He).
Qed.
Print Assumptions C50_once. Print Assumptions C50_all_reachable_partial.

(** ** termination *)
Definition nt {A} (m : M A) : Prop := forall w, snd (m w) <> OTimeout.
Lemma nt_ret {A} (a : A) : nt (ret a). Proof. intros w. discriminate. Qed.
Lemma nt_emit e : nt (emit e). Proof. intros w. discriminate. Qed.
Lemma nt_bind {A B} (m : M A) (f : A -> M B) : nt m -> (forall a, nt (f a)) -> nt (bind m f).
Proof.
  intros Hm Hf w. unfold bind. specialize (Hm w). destruct (m w) as [w1 [a| | |]]; cbn [snd] in *; [apply Hf|discriminate|discriminate|congruence].
Qed.
(** [f] may rely on what [m] returned *)
Lemma nt_bind_ret {A B} (m : M A) (f : A -> M B) : nt m -> (forall w w' a, m w = (w', Ret a) -> nt (f a)) -> nt (bind m f).
Proof.
  intros Hm Hf w. unfold bind. specialize (Hm w). destruct (m w) as [w1 [a| | |]] eqn:EM; cbn [snd] in *; [apply (Hf _ _ _ EM)|discriminate|discriminate|congruence].
Qed.
Lemma nt_lift {A} (r : Res A) : r <> Timeout -> nt (lift r).
Proof. intros H w. unfold lift. destruct r; cbn [snd]; congruence. Qed.
Lemma nt_lift_bind {A B} (r : Res A) (f : A -> M B) : r <> Timeout -> (forall a, r = Ok a -> nt (f a)) -> nt (bind (lift r) f).
Proof. intros H Hf. apply nt_bind_ret; [apply nt_lift; exact H|]. intros w w' a HL. apply Hf. unfold lift in HL. destruct r; congruence. Qed.
Lemma nt_syscall {A} E k s (eff : fs -> fs * option A) part : nt (syscall E k s eff part).
Proof. intros w. unfold syscall. destruct (e_faults _ _ _); [destruct (eff _)|..]; cbn [snd]; discriminate. Qed.
Lemma nt_read dev n o : nt (devRead dev n o).
Proof. intros w. unfold devRead. destruct (dev n o). cbn [snd]. discriminate. Qed.
Lemma rb_nt {A B} (r : Res A) (f : A -> Res B) : r <> Timeout -> (forall a, f a <> Timeout) -> rbind r f <> Timeout.
Proof. intros H1 H2. destruct r; cbn [rbind]; [apply H2|discriminate|congruence]. Qed.
Lemma slice_nt s a b : go_slice s a b <> Timeout.
Proof. unfold go_slice. destruct (_ && _); discriminate. Qed.
Lemma index_nt s i : go_index s i <> Timeout.
Proof. unfold go_index. destruct (_ && _); discriminate. Qed.
Ltac res_nt := repeat (first [apply slice_nt | apply index_nt | (apply rb_nt; [|intros ?])]); try discriminate.
Lemma at64_nt o s : at64 o s <> Timeout. Proof. unfold at64, SliceUint64LE, go_from, go_to. res_nt. Qed.
Lemma at16_nt o s : at16 o s <> Timeout. Proof. unfold at16, SliceUint16LE, go_from, go_to. res_nt. Qed.
Lemma atKey_nt o s : atKey o s <> Timeout. Proof. unfold atKey, SliceKey, SliceUint64LE, go_from, go_to. res_nt. Qed.
Lemma name_nt d : DirItem_Name d <> Timeout. Proof. unfold DirItem_Name, name_at. apply rb_nt; [apply at16_nt|]. intros l. res_nt. Qed.
Lemma isdir_nt d : DirItem_IsDir d <> Timeout. Proof. unfold DirItem_IsDir, DirItem_Type, at8. res_nt. Qed.
Lemma issub_nt d : DirItem_IsSubvolume d <> Timeout. Proof. unfold DirItem_IsSubvolume, DirItem_Location. apply rb_nt; [apply atKey_nt|discriminate]. Qed.
Lemma classify_nt o dest di : classify o dest di <> Timeout.
Proof.
  unfold classify. apply rb_nt; [apply name_nt|]. intros n. destruct (skip_name n); [discriminate|]. cbv zeta. apply rb_nt; [apply isdir_nt|]. intros b.
  apply rb_nt; [destruct b; [discriminate|apply issub_nt]|]. intros s. destruct s.
  - apply rb_nt; [apply atKey_nt|]. intros loc. apply rb_nt; [apply issub_nt|]. intros []; discriminate.
  - apply rb_nt; [apply index_nt|]. intros t. destruct (t =? FtRegFile); [apply rb_nt; [apply atKey_nt|discriminate]|]. destruct (t =? FtSymlink); [apply rb_nt; [apply atKey_nt|discriminate]|discriminate].
Qed.
Lemma inline_nt e : FileExtentItem_IsInline e <> Timeout. Proof. unfold FileExtentItem_IsInline, FileExtentItem_Type, at8. res_nt. Qed.
Lemma data_nt e : FileExtentItem_Data e <> Timeout. Proof. unfold FileExtentItem_Data. apply rb_nt; [apply at64_nt|]. intros r. cbv zeta. res_nt. Qed.
Lemma make_nt n : make_bytes n <> Timeout. Proof. unfold make_bytes. destruct (_ && _); discriminate. Qed.
Lemma nt_mkall_loop E : forall fuel s, (length s < fuel)%nat -> nt (MkdirAll_loop fuel E s).
Proof.
  induction fuel as [|fuel IH]; intros s Hs; [lia|]. cbn [MkdirAll_loop]. apply nt_bind; [apply nt_syscall|].
  assert (HT : nt (ok <~ match parent_of s with Some p => MkdirAll_loop fuel E p | None => ret true end ;;
        if ok : bool then r <~ Mkdir E s ;; match r with Some _ => ret true | None => k <~ Lstat E s ;; ret (is_kdir k) end else ret false)).
  { apply nt_bind; [destruct (parent_of s) as [p|] eqn:EP; [|apply nt_ret]; destruct (parent_leading _ _ EP) as (_ & _ & HL); apply IH; lia|].
    intros []; [|apply nt_ret]. apply nt_bind; [apply nt_syscall|]. intros []; [apply nt_ret|]. apply nt_bind; [apply nt_syscall|]. intros k. apply nt_ret. }
  intros [[| |]|]; [apply nt_ret|apply nt_ret|apply nt_ret|exact HT].
Qed.
Lemma nt_mkall E s : nt (MkdirAll E s). Proof. apply nt_mkall_loop. lia. Qed.

(** a reader that does what io.ReaderAt asks: at most n bytes, and at least one or an error *)
Definition makes_progress (dev : readerAt) : Prop := forall n off, 0 < n -> zlen (fst (dev n off)) <= n /\ (snd (dev n off) = None -> 0 < zlen (fst (dev n off))).
Lemma file_reader_progress c : makes_progress (file_reader c).
Proof.
  intros n off Hn. unfold file_reader. destruct (off <? 0) eqn:EO; cbn [fst snd]; [split; [unfold zlen; cbn [length]; lia|discriminate]|].
  set (d := firstn (Z.to_nat n) (skipn (Z.to_nat off) c)). assert (HL : zlen d <= n) by (unfold d, zlen; rewrite firstn_length; lia). split; [exact HL|].
  destruct (zlen d <? n) eqn:EL; [discriminate|]. intros _. lia.
Qed.
(** the index answers every question (no question runs forever: see C20) *)
Definition answers (q : queries) : Prop :=
  (forall o d, st_end (q_dirItems q o d) <> Timeout) /\ (forall o i, st_end (q_extents q o i) <> Timeout) /\ st_end (q_subvolumes q) <> Timeout /\
  (forall o i, q_inode q o i <> Timeout) /\ (forall o i, q_extent0 q o i <> Timeout) /\ (forall l, q_physical q l <> Timeout).
Lemma filter_len {A} (f : A -> bool) l : (length (filter f l) <= length l)%nat.
Proof. induction l as [|x l IH]; cbn; [lia|]. destruct (f x); cbn; lia. Qed.
Section Terminates.
  Variables (cfuel : nat) (E : env) (dev : readerAt) (q : queries) (clobber : bool).
  Hypothesis Hdev : makes_progress dev.
  Hypothesis Hq : answers q.
  Hypothesis Hc : 2^64 < Z.of_nat cfuel.
  Lemma nt_copy h path nb so fo : 0 <= nb < 2^64 -> forall fuel c, 0 <= c <= nb -> nb - c < Z.of_nat fuel -> nt (copy_loop fuel E dev h path nb so fo c).
  Proof using Hdev.
    clear Hc. intros Hnb. induction fuel as [|fuel IH]; intros c Hcr Hf; [lia|]. cbn [copy_loop]. destruct (c <? nb) eqn:EC; [|apply nt_ret]. cbv zeta.
    assert (EU : u64 (nb - c) = nb - c) by (unfold u64; apply Z.mod_small; lia). rewrite EU. set (tc := if chunkSize <? nb - c then chunkSize else nb - c).
    assert (Htc : 0 < tc <= nb - c) by (subst tc; destruct (Z.ltb_spec chunkSize (nb - c)); unfold chunkSize in *; lia).
    intros w. unfold bind at 1. unfold devRead at 1. pose proof (Hdev tc (i64 (u64 (so + c))) ltac:(lia)) as [HP1 HP2].
    destruct (dev tc (i64 (u64 (so + c)))) as [d e]. cbn [fst snd] in HP1, HP2. cbv beta iota. set (w1 := mkWorld _ _ _). generalize w1. clear w w1.
    match goal with |- forall w, snd (?m w) <> _ => change (nt m) end. apply nt_bind.
    - destruct (0 <? zlen d); [|apply nt_ret]. apply nt_bind; [apply nt_syscall|]. intros r. apply nt_ret.
    - intros []; cbn [negb]; [|apply nt_ret]. assert (0 <= zlen d) by (unfold zlen; lia). assert (EU2 : u64 (c + zlen d) = c + zlen d) by (unfold u64; apply Z.mod_small; lia). rewrite EU2.
      destruct e as [[]|]; [destruct (c + zlen d <? nb); apply nt_ret|apply nt_ret|]. specialize (HP2 eq_refl). apply IH; lia.
  Qed.
  Lemma at64_range o s x : at64 o s = Ok x -> 0 <= x < 2^64.
  Proof using.
    clear Hc.
    unfold at64, SliceUint64LE, go_from, go_to. destruct (go_slice s o (s_len s)) as [b| |]; cbn [rbind]; try discriminate. destruct (go_slice b 0 8) as [c| |] eqn:EG; cbn [rbind]; try discriminate.
    intros H. injection H as <-. unfold go_slice in EG. destruct (_ && _); [|discriminate]. injection EG as <-. pose proof (le_decode_range (sbytes (mkSlice (s_arr b) 8))) as HR.
    assert (zlen (sbytes (mkSlice (s_arr b) 8)) <= 8) by (unfold sbytes, zlen; cbn [s_arr s_len]; rewrite firstn_length; change (Z.to_nat 8) with 8%nat; lia).
    assert (256 ^ zlen (sbytes (mkSlice (s_arr b) 8)) <= 256 ^ 8) by (apply Z.pow_le_mono_r; lia). change (256 ^ 8) with (2^64) in *. lia.
  Qed.
  Lemma nt_extents h path ii fin : fin <> Timeout -> forall l, nt (extents_loop cfuel E dev q h path ii l fin).
  Proof using Hdev Hq Hc.
    intros HF. induction l as [|[k e] l IH]; cbn [extents_loop]; [apply nt_bind; [apply nt_lift; exact HF|intros _; apply nt_ret]|]. cbv zeta.
    apply nt_lift_bind; [apply inline_nt|]. intros b _. apply nt_bind; [|intros []; [exact IH|apply nt_ret]]. destruct b.
    - unfold inline_extent. apply nt_lift_bind; [apply data_nt|]. intros d _. cbv zeta. destruct (0 <? _); [|apply nt_ret]. apply nt_lift_bind; [apply slice_nt|]. intros d' _.
      apply nt_bind; [apply nt_syscall|intros r; apply nt_ret].
    - unfold disk_extent. apply nt_lift_bind; [apply at64_nt|]. intros nb Enb. apply nt_lift_bind; [apply at64_nt|]. intros nr _. destruct (nr =? 0).
      + apply nt_lift_bind; [apply make_nt|]. intros z _. apply nt_bind; [apply nt_syscall|intros r; apply nt_ret].
      + apply nt_lift_bind; [apply Hq|]. intros [dv ph] _. apply nt_lift_bind; [apply at64_nt|]. intros o _. apply at64_range in Enb. apply nt_copy; lia.
  Qed.
  Lemma nt_file o i path : nt (recoverFile cfuel E dev q clobber o i path).
  Proof using Hdev Hq Hc.
    unfold recoverFile. apply nt_bind; [apply nt_syscall|]. intros k. destruct (_ && _); [apply nt_ret|]. apply nt_lift_bind; [apply Hq|]. intros x _.
    apply nt_lift_bind; [destruct x; [apply rb_nt; [apply at64_nt|discriminate]|discriminate]|]. intros ii _. apply nt_bind; [apply nt_syscall|]. intros [h|]; [|apply nt_ret]. cbv zeta.
    assert (HE : st_end (q_extents q o i) <> Timeout) by apply Hq. destruct (st_items (q_extents q o i)) as [|x0 l].
    - apply nt_bind; [apply nt_lift; exact HE|]. intros _. apply nt_bind; [destruct ii; [apply nt_syscall|apply nt_ret]|intros _; apply nt_ret].
    - apply nt_bind; [apply nt_extents; exact HE|]. intros []; [|apply nt_ret]. destruct ii; [|apply nt_ret]. apply nt_bind; [apply nt_syscall|intros r; apply nt_ret].
  Qed.
  Lemma nt_link o i path : nt (recoverSymlink E dev q clobber o i path).
  Proof using Hq.
    clear Hc.
    unfold recoverSymlink. apply nt_bind; [apply nt_syscall|]. intros k. destruct (_ && _); [apply nt_ret|]. apply nt_bind; [destruct (is_some k); [apply nt_syscall|apply nt_ret]|]. intros _.
    apply nt_lift_bind; [apply Hq|]. intros [e|] _; [|apply nt_ret]. apply nt_bind.
    - unfold link_target. apply nt_lift_bind; [apply inline_nt|]. intros [] _; [apply nt_lift_bind; [apply data_nt|intros t _; apply nt_ret]|].
      apply nt_lift_bind; [apply at64_nt|]. intros nr _. destruct (0 <? nr); [|apply nt_ret]. apply nt_lift_bind; [apply Hq|]. intros [dv ph] _. apply nt_lift_bind; [apply at64_nt|]. intros of _.
      apply nt_lift_bind; [apply at64_nt|]. intros n _. apply nt_lift_bind; [apply make_nt|]. intros buf _. apply nt_bind; [apply nt_read|]. intros [d [e0|]]; apply nt_ret.
    - intros [t|]; [|apply nt_ret]. apply nt_bind; [apply nt_syscall|intros r; apply nt_ret].
  Qed.
  Lemma nt_warn (ok : bool) k p : nt (if ok then ret tt else emit (EvWarn k p)).
  Proof using. clear Hc. destruct ok; [apply nt_ret|apply nt_emit]. Qed.
  (** a finite set of directories closed under the edges *)
  Variable U : list (Z * Z).
  Hypothesis Hstart : forall k, start q k -> In k U.
  Hypothesis Hedge : forall k k', In k U -> edge q k k' -> In k' U.
  Definition todo (v : list (Z * Z)) : nat := length (filter (fun k => negb (key_in k v)) U).
  Lemma todo_incl v v' : incl v v' -> (todo v' <= todo v)%nat.
  Proof using.
    clear Hc Hstart Hedge.
    intros HI. unfold todo. induction U as [|k U0 IH]; [cbn; lia|]. cbn [filter]. destruct (key_in k v) eqn:E1; cbn [negb].
    - apply key_in_spec, HI, key_in_spec in E1. rewrite E1. exact IH.
    - destruct (key_in k v'); cbn [negb length]; lia.
  Qed.
  Lemma todo_add k v : In k U -> ~ In k v -> (todo (k :: v) < todo v)%nat.
  Proof using.
    clear Hc Hstart Hedge.
    intros HU HN. unfold todo. induction U as [|x U0 IH]; [destruct HU|]. cbn [filter]. assert (HX : (length (filter (fun k0 => negb (key_in k0 (k :: v))) U0) <= length (filter (fun k0 => negb (key_in k0 v)) U0))%nat).
    { clear. induction U0 as [|y U0 IH]; [cbn; lia|]. cbn [filter]. destruct (key_in y v) eqn:E1; cbn [negb].
      - assert (key_in y (k :: v) = true) by (apply key_in_spec; right; apply key_in_spec; exact E1). rewrite H. exact IH.
      - destruct (key_in y (k :: v)); cbn [negb length]; lia. }
    destruct HU as [->|HU].
    - assert (E1 : key_in k (k :: v) = true) by (apply key_in_spec; left; reflexivity). apply key_in_false in HN. rewrite E1, HN. cbn [negb length]. lia.
    - specialize (IH HU). destruct (key_in x v) eqn:E2; cbn [negb].
      + assert (E3 : key_in x (k :: v) = true) by (apply key_in_spec; right; apply key_in_spec; exact E2). rewrite E3. exact IH.
      + destruct (key_in x (k :: v)); cbn [negb length]; lia.
  Qed.
  Lemma classify_names o dest di o' d' p : classify o dest di = Ok (ADir o' d' p) -> names_dir o di (o', d').
  Proof using.
    clear Hc.
    unfold classify. destruct (DirItem_Name di) as [n| |] eqn:E1; cbn [rbind]; try discriminate. destruct (skip_name n) eqn:E2; [discriminate|]. cbv zeta.
    unfold DirItem_IsDir, DirItem_IsSubvolume. destruct (DirItem_Type di) as [t| |] eqn:E3; cbn [rbind]; try discriminate.
    destruct (DirItem_Location di) as [loc| |] eqn:E4; cbn [rbind]; try (destruct (t =? FtDir); discriminate).
    intros H. exists n, t, loc. split; [exact E1|]. split; [exact E2|]. split; [exact E3|]. split; [exact E4|].
    destruct (t =? FtDir) eqn:ET; cbn [rbind] in H.
    - destruct (KType loc =? RootItemKey) eqn:EK; injection H as <- <- <-; [left; split; [lia|reflexivity]|right; split; [lia|split; [lia|reflexivity]]].
    - destruct (KType loc =? RootItemKey) eqn:EK; cbn [rbind] in H; [injection H as <- <- <-; left; split; [lia|reflexivity]|].
      destruct (t =? FtRegFile); [discriminate|]. destruct (t =? FtSymlink); discriminate.
  Qed.
  Lemma nt_items rec owner dest N :
    (forall o d p v, steps (rec o d p v) (called q v (o, d))) ->
    (forall o d p v, In (o, d) U -> (todo v < N)%nat -> nt (rec o d p v)) ->
    forall l v, (forall e k', In e l -> names_dir owner (snd e) k' -> In k' U) -> (todo v < N)%nat -> nt (items_loop rec cfuel E dev q clobber owner dest l v).
  Proof using Hdev Hq Hc.
    intros HR HN. induction l as [|[k di] l IH]; intros v HL Hv; cbn [items_loop]; [apply nt_ret|]. apply nt_lift_bind; [apply classify_nt|]. intros a EA.
    assert (IHv : forall v', incl v v' -> nt (items_loop rec cfuel E dev q clobber owner dest l v')).
    { intros v' HI. apply IH; [intros e k' He; apply HL; right; exact He|]. pose proof (todo_incl v v' HI). lia. }
    destruct a as [|o d p|i p|i p].
    - unfold nt. intros w. unfold bind, ret. apply IHv, incl_refl.
    - apply nt_bind_ret.
      + apply nt_bind; [apply HN; [apply (HL (k, di) (o, d) (or_introl eq_refl)); exact (classify_names _ _ _ _ _ _ EA)|exact Hv]|]. intros [v' ok]. apply nt_bind; [apply nt_warn|intros _; apply nt_ret].
      + intros w w' v' HX. apply IHv. unfold bind in HX. destruct (rec o d p v w) as [w1 [[v1 ok1]| | |]] eqn:ER; try discriminate. destruct (HR o d p v _ _ _ ER) as (ev & _ & _ & _ & _ & HI & _).
        destruct ok1; unfold ret, emit in HX; cbv beta iota in HX; injection HX as _ <-; exact HI.
    - apply nt_bind_ret.
      + apply nt_bind; [apply nt_file|]. intros ok. apply nt_bind; [apply nt_warn|intros _; apply nt_ret].
      + intros w w' v' HX. apply IHv. unfold bind in HX. destruct (recoverFile _ _ _ _ _ _ _ _ w) as [w1 [ok1| | |]]; try discriminate. destruct ok1; unfold ret, emit in HX; cbv beta iota in HX; injection HX as _ <-; apply incl_refl.
    - apply nt_bind_ret.
      + apply nt_bind; [apply nt_link|]. intros ok. apply nt_bind; [apply nt_warn|intros _; apply nt_ret].
      + intros w w' v' HX. apply IHv. unfold bind in HX. destruct (recoverSymlink _ _ _ _ _ _ _ w) as [w1 [ok1| | |]]; try discriminate. destruct ok1; unfold ret, emit in HX; cbv beta iota in HX; injection HX as _ <-; apply incl_refl.
  Qed.
  Lemma nt_dir : forall fuel o d dest v, In (o, d) U -> (todo v < fuel)%nat -> nt (recoverDir fuel cfuel E dev q clobber o d dest v).
  Proof using Hdev Hq Hc Hedge.
    induction fuel as [|fuel IH]; intros o d dest v HU Hf; [lia|]. cbn [recoverDir]. destruct (key_in (o, d) v) eqn:EK; [apply nt_ret|]. apply key_in_false in EK. cbv zeta.
    apply nt_bind; [apply nt_mkall|]. intros []; cbn [negb]; [|apply nt_ret]. apply nt_bind; [apply nt_emit|]. intros _. apply nt_bind; [apply nt_lift, Hq|]. intros _.
    apply nt_bind; [|intros v'; apply nt_ret]. apply (nt_items _ _ _ fuel); [intros; apply dir_called|exact IH| |pose proof (todo_add _ _ HU EK); lia].
    intros e k' He Hn. apply (Hedge (o, d) k' HU). exists e. auto.
  Qed.
  Lemma nt_subvols fuel dest fin : fin <> Timeout -> forall l v, (forall e, In e l -> In (ObjectID (ik_Key (fst e)), FirstFreeObjectID) U) -> (todo v < fuel)%nat ->
    nt (subvols_loop fuel cfuel E dev q clobber dest l fin v).
  Proof using Hdev Hq Hc Hedge.
    intros HF. induction l as [|[k di] l IH]; intros v HL Hv; cbn [subvols_loop]; [apply nt_bind; [apply nt_lift; exact HF|intros _; apply nt_ret]|]. cbv zeta.
    assert (IHv : forall v', incl v v' -> nt (subvols_loop fuel cfuel E dev q clobber dest l fin v')).
    { intros v' HI. apply IH; [intros e He; apply HL; right; exact He|]. pose proof (todo_incl v v' HI). lia. }
    destruct (key_in _ v); [intros w; unfold bind, ret; apply IHv, incl_refl|]. apply nt_bind_ret.
    - apply nt_bind; [apply nt_dir; [apply (HL (k, di)); left; reflexivity|exact Hv]|]. intros [v' ok]. apply nt_bind; [apply nt_warn|intros _; apply nt_ret].
    - intros w w' v' HX. apply IHv. unfold bind in HX. destruct (recoverDir _ _ _ _ _ _ _ _ _ _ w) as [w1 [[v1 ok1]| | |]] eqn:ER; try discriminate.
      destruct (dir_called _ _ _ _ _ _ _ _ _ _ _ _ _ ER) as (ev & _ & _ & _ & _ & HI & _). destruct ok1; unfold ret, emit in HX; cbv beta iota in HX; injection HX as _ <-; exact HI.
  Qed.
  Lemma nt_recover fuel dest : (length U < fuel)%nat -> nt (doRecoverFiles fuel cfuel E dev q clobber dest).
  Proof using Hdev Hq Hc Hedge Hstart.
    intros Hf. assert (HT : forall v, (todo v < fuel)%nat) by (intros v; unfold todo; pose proof (filter_len (fun k => negb (key_in k v)) U); lia).
    unfold doRecoverFiles. apply nt_bind; [apply nt_mkall|]. intros []; cbn [negb]; [|apply nt_bind; [apply nt_emit|intros _; apply nt_ret]].
    apply nt_bind; [apply nt_dir; [apply Hstart; left; reflexivity|apply HT]|]. intros [v ok]. apply nt_bind; [apply nt_warn|]. intros _. apply nt_bind; [|intros v'; apply nt_ret].
    apply nt_subvols; [apply Hq| |apply HT]. intros e He. apply Hstart. right. exists e. auto.
  Qed.
End Terminates.
(** C50: recovery terminates on every finite directory graph, cycles included: the
    recursion is never deeper than the number of directories *)
Theorem C50_terminates E dev q clobber dest w U fuel cfuel :
  makes_progress dev -> answers q ->
  (forall k, start q k -> In k U) -> (forall k k', In k U -> edge q k k' -> In k' U) ->
  (length U < fuel)%nat -> 2^64 < Z.of_nat cfuel ->
  snd (doRecoverFiles fuel cfuel E dev q clobber dest w) <> OTimeout.
Proof. intros HD HQ HS HE HF HC. exact (nt_recover cfuel E dev q clobber HD HQ HC U HS HE fuel dest HF w). Qed.
Print Assumptions C50_terminates.

(** the directory graph of an index is finite *)
Lemma seek_in b k e : cur_entry (seek b k) = Some e -> In e b.
Proof.
  unfold seek. assert (G : forall b before, cur_entry (seek_from before b k) = Some e -> In e b).
  { clear b. induction b as [|x b IH]; intros before H; cbn [seek_from] in H; [discriminate|]. destruct (bytes_ltb (fst x) k); [right; exact (IH _ H)|]. cbn in H. injection H as ->. left. reflexivity. }
  apply G.
Qed.
Lemma prev_in b k e : prev_entry (seek b k) = Some e -> In e b.
Proof.
  unfold seek. assert (G : forall b before, prev_entry (seek_from before b k) = Some e -> In e before \/ In e b).
  { clear b. induction b as [|x b IH]; intros before H; cbn [seek_from] in H; [left; unfold prev_entry in H; cbn [fst] in H; destruct before; [discriminate|injection H as ->; left; reflexivity]|].
    destruct (bytes_ltb (fst x) k); [destruct (IH _ H) as [[->|Hb]|Hb]; [right; left; reflexivity|left; exact Hb|right; right; exact Hb]|].
    left. unfold prev_entry in H. cbn [fst] in H. destruct before; [discriminate|]. injection H as ->. left. reflexivity. }
  intros H. destruct (G b [] H) as [[]|Hb]. exact Hb.
Qed.
Lemma find_in b o k g e : Store.find b o k g = Ok (Some e) -> In e b.
Proof.
  unfold Store.find. destruct (cur_entry _) as [[fk fv]|] eqn:EC; [|discriminate]. destruct (bytes_leb _ _); [intros H; injection H as <-; exact (seek_in _ _ _ EC)|].
  destruct (prev_entry _) as [[pk pv]|] eqn:EP; [|discriminate]. destruct (_ && _); [|discriminate]. intros H. injection H as <-. exact (prev_in _ _ _ EP).
Qed.
Lemma findNext_in b k e x : findNext b k e = Some x -> In x b.
Proof.
  unfold findNext. destruct (cur_entry (seek b _)) as [[f1 v1]|]; [|discriminate]. destruct (cur_entry (seek b _)) as [[f2 v2]|] eqn:EC; [|discriminate].
  destruct (bytes_leb f2 _); [intros H; injection H as <-; exact (seek_in _ _ _ EC)|]. destruct e as [e|]; [|discriminate]. destruct (bytes_leb f2 e); [|discriminate]. intros H. injection H as <-. exact (seek_in _ _ _ EC).
Qed.
Definition from_bucket (b : bucket) (e : list byte * slice) : Prop := exists v, In (fst e, v) b /\ valueData v = Ok (snd e).
Lemma stream_in b gen o first last : forall fuel e, In e (st_items (stream_of fuel b (mkRangeFrom b gen o first last))) -> from_bucket b e.
Proof.
  intros fuel e. unfold stream_of, mkRangeFrom. destruct (Store.find b o (lowerBound b o first gen 17) gen) as [[[k v]|]| |] eqn:EF; cbn [rbind]; try (intros []).
  2: { destruct fuel; cbn; intros []. }
  destruct (valueData v) as [d| |] eqn:EV; cbn [rbind]; try (intros []).
  assert (G : forall fuel k v d, In (k, v) b -> valueData v = Ok d -> forall E0 x, In x (st_items (stream_loop fuel b (mkRange (Some k) E0 v) d)) -> from_bucket b x).
  { clear. induction fuel as [|fuel IH]; intros k v d Hin Hd E0 x Hx; [destruct Hx|]. cbn [stream_loop] in Hx. destruct (HasNext _); [|destruct Hx]. cbn [r_key] in Hx.
    assert (H0 : from_bucket b (k, d)) by (exists v; auto). unfold Range_Next in Hx. cbn [r_key r_end] in Hx. destruct (findNext b k None) as [[k' v']|] eqn:EN.
    - destruct (valueData v') as [d'| |] eqn:EV'; cbn [rbind] in Hx; [|destruct Hx as [<-|[]]; exact H0|destruct Hx as [<-|[]]; exact H0].
      cbn [st_items] in Hx. destruct Hx as [<-|Hx]; [exact H0|]. exact (IH k' v' d' (findNext_in _ _ _ _ EN) EV' E0 x Hx).
    - cbn [st_items] in Hx. destruct Hx as [<-|Hx]; [exact H0|]. destruct fuel; cbn in Hx; destruct Hx. }
  apply (G fuel k v d (find_in _ _ _ _ _ EF) EV).
Qed.
Lemma quad n : (S (n + n) * S n <= (1 + 2 * n) * (1 + n))%nat.
Proof. apply Nat.eq_le_incl. ring. Qed.
(** C50 for an index: however the dir items are arranged, a recursion depth
    quadratic in the number of records is enough *)
Theorem C50_terminates_index E dev b gen rfuel clobber dest w fuel cfuel :
  makes_progress dev -> answers (ix_queries rfuel b gen) ->
  ((1 + 2 * length b) * (1 + length b) < fuel)%nat -> 2^64 < Z.of_nat cfuel ->
  snd (doRecoverFiles fuel cfuel E dev (ix_queries rfuel b gen) clobber dest w) <> OTimeout.
Proof.
  intros HD HQ HF HC. set (locs := map (fun e => match valueData (snd e) with Ok d => match DirItem_Location d with Ok k => ObjectID k | _ => 0 end | _ => 0 end) b).
  set (ids := map (fun e => ObjectID (ik_Key (fst e))) b).
  apply (C50_terminates E dev (ix_queries rfuel b gen) clobber dest w (list_prod (FSTreeObjectID :: locs ++ ids) (FirstFreeObjectID :: locs))); [exact HD|exact HQ| | |rewrite prod_length; cbn [length]; rewrite app_length; unfold locs, ids; rewrite !map_length; eapply Nat.le_lt_trans; [|exact HF]; exact (quad (length b))|exact HC].
  - intros k [->|(e & He & ->)]; apply in_prod; try (left; reflexivity). right. apply in_or_app. right. destruct (stream_in _ _ _ _ _ _ _ He) as (v & Hin & _).
    apply in_map_iff. exists (fst e, v). auto.
  - intros [o d] k' Hk (e & He & name & t & loc & _ & _ & _ & Hl & Hk'). apply in_prod_iff in Hk as [Ho Hd]. destruct (stream_in _ _ _ _ _ _ _ He) as (v & Hin & Hv).
    assert (HL : In (ObjectID loc) locs) by (apply in_map_iff; exists (fst e, v); split; [cbn [snd]; rewrite Hv, Hl; reflexivity|exact Hin]).
    destruct Hk' as [[_ ->]|(_ & _ & ->)]; apply in_prod; [right; apply in_or_app; left; exact HL|left; reflexivity|exact Ho|right; exact HL].
Qed.
Print Assumptions C50_terminates_index.
