(** filepath.Clean and Join on paths below a directory. *)
From Verif Require Import Go GoProofs Path Fs SpecFs Recover.
From Coq Require Import ZifyBool ZifyNat ZifyN.
Ltac Zify.zify_post_hook ::= Z.div_mod_to_equations.

Lemma beqb_eq a b : beqb a b = true <-> a = b.
Proof.
  split; [|intros ->; unfold beqb; apply Z.eqb_refl]. unfold beqb. rewrite Z.eqb_eq. unfold bz. intros H.
  apply (f_equal Z.to_N) in H. rewrite !N2Z.id in H. pose proof (Byte.of_to_N a) as A. rewrite H, Byte.of_to_N in A. congruence.
Qed.
Lemma beqb_neq a b : beqb a b = false <-> a <> b.
Proof. rewrite <- beqb_eq. destruct (beqb a b); split; congruence. Qed.
Lemma Split_nonnil s : Split s <> [].
Proof. destruct s as [|c r]; cbn [Split]; [discriminate|]. destruct (beqb c slash); [discriminate|]. destruct (Split r); discriminate. Qed.
Lemma Split_app a b : Split (a ++ slash :: b) = Split a ++ Split b.
Proof.
  induction a as [|c a IH]; cbn [app Split]; [reflexivity|]. rewrite IH. destruct (beqb c slash); [reflexivity|].
  destruct (Split a) eqn:E; [destruct (Split_nonnil a E)|reflexivity].
Qed.
Lemma Split_plain c : ~ In slash c -> Split c = [c].
Proof.
  induction c as [|x c IH]; intros H; cbn [Split]; [reflexivity|]. rewrite IH by (intros A; apply H; right; exact A).
  destruct (beqb x slash) eqn:E; [apply beqb_eq in E; subst; destruct H; left; reflexivity|reflexivity].
Qed.
Lemma Split_no_slash s : Forall (fun c => ~ In slash c) (Split s).
Proof.
  induction s as [|c s IH]; cbn [Split]; [repeat constructor; intros []|]. destruct (beqb c slash) eqn:E.
  - constructor; [intros []|exact IH].
  - destruct (Split s) as [|w ws]; [repeat constructor; intros [->|[]]; revert E; unfold beqb; rewrite Z.eqb_refl; discriminate|].
    inversion IH as [|? ? A B]; subst. constructor; [|exact B]. intros [->|H]; [revert E; unfold beqb; rewrite Z.eqb_refl; discriminate|exact (A H)].
Qed.
Lemma comps_app a b : comps (a ++ slash :: b) = comps a ++ comps b.
Proof. unfold comps. rewrite Split_app. apply filter_app. Qed.
(** what [comps] yields *)
Definition okc (c : comp) : Prop := c <> [] /\ is_dot c = false /\ ~ In slash c.
Lemma comps_ok s : Forall okc (comps s).
Proof.
  unfold comps. pose proof (Split_no_slash s) as H. rewrite Forall_forall in *. intros c Hc. apply filter_In in Hc as [Hin Hb]. apply negb_true_iff, orb_false_iff in Hb as [A B].
  split; [|split; [exact B|exact (H c Hin)]]. destruct c; discriminate.
Qed.
Lemma comps_one c : okc c -> comps c = [c].
Proof. intros (A & B & C). unfold comps. rewrite (Split_plain c C). cbn [filter]. rewrite B. destruct c; [contradiction|reflexivity]. Qed.
Lemma comps_nil : comps [] = [].
Proof. reflexivity. Qed.
Lemma comps_join l : Forall okc l -> comps (join_comps l) = l.
Proof.
  induction l as [|c l IH]; intros H; [reflexivity|]. inversion H as [|? ? H1 H2]; subst. destruct l as [|d l]; [exact (comps_one c H1)|].
  change (join_comps (c :: d :: l)) with (c ++ slash :: join_comps (d :: l)). rewrite comps_app, IH, comps_one by assumption. reflexivity.
Qed.
Lemma plain_okc c : plain c -> okc c /\ is_dotdot c = false.
Proof.
  intros (A & B & C & D). split; [split; [exact A|split; [|exact D]]|].
  - unfold is_dot. destruct (bytes_eqb c [dot]) eqn:E; [apply bytes_eqb_eq in E; contradiction|reflexivity].
  - unfold is_dotdot. destruct (bytes_eqb c [dot; dot]) eqn:E; [apply bytes_eqb_eq in E; contradiction|reflexivity].
Qed.
Lemma skip_plain n : skip_name n = false -> n = [] \/ plain n.
Proof.
  unfold skip_name. rewrite !orb_false_iff. intros [[[A B] C] _]. destruct n as [|x n]; [left; reflexivity|]. right.
  split; [discriminate|]. split; [intros E; rewrite E in A; discriminate A|]. split; [intros E; rewrite E in B; discriminate B|].
  intros H. unfold has_byte in C. assert (existsb (beqb slash) (x :: n) = true) by (apply existsb_exists; exists slash; split; [exact H|apply beqb_eq; reflexivity]). congruence.
Qed.

(** ** the stack of Clean *)
Fixpoint nst (r : bool) (st : list comp) : Prop :=
  match st with
  | [] => True
  | d :: st => nst r st /\ (is_dotdot d = true -> r = false /\ Forall (fun x => is_dotdot x = true) st)
  end.
Lemma clean_nst r l : forall st, nst r st -> nst r (rev (clean_comps r l st)).
Proof.
  induction l as [|c l IH]; intros st H; cbn [clean_comps]; [rewrite rev_involutive; exact H|].
  destruct (is_dotdot c) eqn:EC.
  - destruct st as [|d st].
    + destruct r; [apply IH; exact H|]. apply IH. cbn [nst]. auto.
    + destruct (is_dotdot d) eqn:ED; [|apply IH; exact (proj1 H)]. apply IH. split; [exact H|]. intros _. destruct H as [_ H]. destruct (H ED) as [A B]. split; [exact A|constructor; assumption].
  - apply IH. split; [exact H|]. congruence.
Qed.
Lemma clean_app r a : forall b st, clean_comps r (a ++ b) st = clean_comps r b (rev (clean_comps r a st)).
Proof.
  induction a as [|c a IH]; intros b st; cbn [app clean_comps]; [rewrite rev_involutive; reflexivity|].
  destruct (is_dotdot c); [|apply IH]. destruct st as [|d st]; [destruct r; apply IH|]. destruct (is_dotdot d); apply IH.
Qed.
Lemma clean_normal r st : nst r st -> clean_comps r (rev st) [] = rev st.
Proof.
  induction st as [|d st IH]; intros H; [reflexivity|]. destruct H as [H1 H2]. cbn [rev]. rewrite clean_app, IH by exact H1. rewrite rev_involutive.
  cbn [clean_comps]. destruct (is_dotdot d) eqn:ED; [|reflexivity]. destruct (H2 eq_refl) as [-> HF]. destruct st as [|e st]; [reflexivity|]. inversion HF as [|? ? A B]; subst. rewrite A. reflexivity.
Qed.
Lemma clean_okc r l : forall st, Forall okc l -> Forall okc st -> Forall okc (clean_comps r l st).
Proof.
  induction l as [|c l IH]; intros st HL HS; cbn [clean_comps]; [apply Forall_rev; exact HS|]. inversion HL as [|? ? H1 H2]; subst.
  destruct (is_dotdot c).
  - destruct st as [|d st]; [destruct r; apply IH; auto|]. inversion HS; subst. destruct (is_dotdot d); apply IH; auto.
  - apply IH; auto.
Qed.
Definition render (r : bool) (st : list comp) : list byte :=
  if r then slash :: join_comps st else if is_nil (join_comps st) then [dot] else join_comps st.
Definition canon (r : bool) (st : list comp) : Prop := nst r (rev st) /\ Forall okc st.
Definition cstack (s : list byte) : list comp := clean_comps (is_abs s) (comps s) [].
Lemma cstack_canon s : canon (is_abs s) (cstack s).
Proof. split; [apply clean_nst; exact Logic.I|apply clean_okc; [apply comps_ok|constructor]]. Qed.
Lemma Clean_render s : Clean s = render (is_abs s) (cstack s).
Proof. unfold Clean, render, cstack. cbv zeta. destruct (is_abs s); reflexivity. Qed.
Lemma join_nil l : Forall okc l -> join_comps l = [] -> l = [].
Proof.
  destruct l as [|c l]; [reflexivity|]. intros H E. inversion H as [|? ? (A & _) _]; subst. destruct l; [contradiction|]. cbn [join_comps] in E. apply app_eq_nil in E as [E _]. contradiction.
Qed.
Lemma join_head l : Forall okc l -> is_abs (join_comps l) = false.
Proof.
  destruct l as [|c l]; [reflexivity|]. intros H. inversion H as [|? ? (A & _ & B) _]; subst. destruct c as [|x c]; [contradiction|].
  assert (x <> slash) by (intros ->; apply B; left; reflexivity). destruct l; cbn [join_comps app is_abs]; apply beqb_neq; assumption.
Qed.
Lemma render_abs r st : canon r st -> is_abs (render r st) = r.
Proof.
  intros [_ H]. unfold render. destruct r; [reflexivity|]. destruct (is_nil (join_comps st)); [reflexivity|apply join_head; exact H].
Qed.
Lemma comps_render r st : canon r st -> comps (render r st) = st.
Proof.
  intros [_ H]. unfold render. destruct r.
  - change (slash :: join_comps st) with ([] ++ slash :: join_comps st). rewrite comps_app, comps_join by exact H. reflexivity.
  - destruct (is_nil (join_comps st)) eqn:E; [|apply comps_join; exact H]. destruct (join_comps st) eqn:EJ; [|discriminate]. rewrite (join_nil st H EJ). reflexivity.
Qed.
Lemma cstack_render r st : canon r st -> cstack (render r st) = st.
Proof.
  intros H. unfold cstack. rewrite render_abs, comps_render by exact H. rewrite <- (rev_involutive st) at 1. rewrite clean_normal by apply H. apply rev_involutive.
Qed.
Lemma render_nonnil r st : canon r st -> render r st <> [].
Proof. intros _. unfold render. destruct r; [discriminate|]. destruct (join_comps st) eqn:E; cbn [is_nil]; discriminate. Qed.
Lemma canon_app r st n : canon r st -> plain n -> canon r (st ++ [n]).
Proof.
  intros [H1 H2] Hn. destruct (plain_okc n Hn) as [A B]. split; [|apply Forall_app; auto]. rewrite rev_app_distr. cbn [rev app nst]. split; [exact H1|congruence].
Qed.
Lemma is_abs_app s t : s <> [] -> is_abs (s ++ t) = is_abs s.
Proof. destruct s; [congruence|reflexivity]. Qed.
Lemma Join_plain s n : s <> [] -> plain n -> Join s n = render (is_abs s) (cstack s ++ [n]).
Proof.
  intros Hs Hn. unfold Join. destruct s as [|x s0] eqn:ES; [congruence|]. cbn [is_nil]. rewrite <- ES in *. rewrite Clean_render, is_abs_app by (subst; discriminate). f_equal.
  unfold cstack. rewrite is_abs_app by (subst; discriminate). destruct (plain_okc n Hn) as [A B]. rewrite comps_app, (comps_one n A), clean_app. cbn [clean_comps]. rewrite B. cbn [rev]. rewrite rev_involutive. reflexivity.
Qed.
Lemma Join_nil s : s <> [] -> Join s [] = render (is_abs s) (cstack s).
Proof.
  intros Hs. unfold Join. destruct s as [|x s0] eqn:ES; [congruence|]. cbn [is_nil]. rewrite <- ES in *. rewrite Clean_render, is_abs_app by (subst; discriminate). f_equal.
  unfold cstack. rewrite is_abs_app by (subst; discriminate). rewrite comps_app, comps_nil, app_nil_r. reflexivity.
Qed.
Lemma join_app a b : a <> [] -> b <> [] -> join_comps (a ++ b) = join_comps a ++ slash :: join_comps b.
Proof.
  intros Ha Hb. induction a as [|c a IH]; [congruence|]. destruct a as [|d a].
  - cbn [app join_comps]. destruct b; [congruence|reflexivity].
  - change ((c :: d :: a) ++ b) with (c :: (d :: a) ++ b). change (join_comps (c :: d :: a)) with (c ++ slash :: join_comps (d :: a)).
    change (join_comps (c :: (d :: a) ++ b)) with (c ++ slash :: join_comps ((d :: a) ++ b)). rewrite IH by discriminate. rewrite <- app_assoc. reflexivity.
Qed.
Lemma okc_not_dot c : okc c -> c <> [dot].
Proof. intros (_ & A & _) ->. discriminate A. Qed.
Lemma sub_path_render r st cs : canon r st -> Forall okc cs -> cs <> [] -> sub_path (render r st) cs = render r (st ++ cs).
Proof.
  intros HC Hok Hcs. pose proof (comps_render r st HC) as ER. unfold sub_path. destruct cs as [|c0 cs0] eqn:EC; [congruence|]. rewrite <- EC in *. assert (Hc : cs <> []) by (subst; discriminate). clear Hcs EC.
  destruct (bytes_eqb (render r st) [dot]) eqn:E1.
  - apply bytes_eqb_eq in E1. assert (Est : st = []) by (rewrite <- ER, E1; reflexivity). clear ER. subst st. destruct r; [discriminate E1|]. unfold render. cbn [app].
    cbn [app]. destruct (join_comps cs) eqn:EJ; [destruct (Hc (join_nil cs Hok EJ))|reflexivity].
  - destruct (bytes_eqb (render r st) [slash]) eqn:E2.
    + apply bytes_eqb_eq in E2. assert (Est : st = []) by (rewrite <- ER, E2; reflexivity). clear ER. subst st. destruct r; [reflexivity|discriminate E2].
    + assert (Hst : st <> []) by (intros ->; destruct r; [discriminate E2|discriminate E1]).
      destruct HC as [_ HO]. unfold render. rewrite (join_app st cs Hst Hc). destruct r; [reflexivity|].
      destruct (join_comps st) eqn:EJ; [destruct (Hst (join_nil st HO EJ))|reflexivity].
Qed.
Lemma plain_all cs : Forall plain cs -> Forall okc cs.
Proof. intros H. rewrite Forall_forall in *. intros c Hc. apply plain_okc, H, Hc. Qed.
Lemma canon_apps r st cs : canon r st -> Forall plain cs -> canon r (st ++ cs).
Proof.
  revert st. induction cs as [|c cs IH]; intros st H HF; [rewrite app_nil_r; exact H|]. inversion HF; subst.
  change (c :: cs) with ([c] ++ cs). rewrite app_assoc. apply IH; [|assumption]. apply canon_app; assumption.
Qed.
(** a path below [dest] as stack *)
Lemma inside_render dest cs : Forall plain cs -> sub_path (Clean dest) cs = render (is_abs dest) (cstack dest ++ cs).
Proof.
  intros H. rewrite Clean_render. destruct cs as [|c cs]; [rewrite app_nil_r; reflexivity|]. apply sub_path_render; [apply cstack_canon|apply plain_all; exact H|discriminate].
Qed.
Lemma Join_inside dest p n : inside dest p -> skip_name n = false -> inside dest (Join p n).
Proof.
  intros HI HS. apply skip_plain in HS. destruct HI as [->|(cs & HF & ->)].
  - destruct dest as [|x dest0] eqn:ED.
    + destruct HS as [->|Hn]; [left; reflexivity|]. right. exists [n]. split; [auto|]. unfold Join. cbn [is_nil]. assert (EN : is_nil n = false) by (destruct Hn as (Hn & _); destruct n; [congruence|reflexivity]). rewrite EN.
      destruct (plain_okc n Hn) as [A B]. assert (EA : is_abs n = false). { destruct A as (_ & _ & A). destruct n as [|y n]; [reflexivity|]. cbn [is_abs]. apply beqb_neq. intros ->. apply A. left. reflexivity. }
      unfold Clean. cbv zeta. rewrite EA, (comps_one n A). cbn [clean_comps]. rewrite B. cbn [rev app join_comps].
      rewrite EN. reflexivity.
    + rewrite <- ED in *. assert (Hd : dest <> []) by (subst; discriminate). destruct HS as [->|Hn].
      * right. exists []. split; [constructor|]. rewrite (Join_nil dest Hd). cbn [sub_path]. symmetry. apply Clean_render.
      * right. exists [n]. split; [auto|]. rewrite (Join_plain dest n Hd Hn), inside_render by auto. reflexivity.
  - pose proof (canon_apps _ _ _ (cstack_canon dest) HF) as HC. rewrite (inside_render dest cs HF).
    destruct HS as [->|Hn].
    + right. exists cs. split; [exact HF|]. rewrite Join_nil by (apply render_nonnil; exact HC). rewrite render_abs, cstack_render by exact HC. symmetry. apply inside_render; exact HF.
    + right. exists (cs ++ [n]). assert (HF' : Forall plain (cs ++ [n])) by (apply Forall_app; auto). split; [exact HF'|].
      rewrite Join_plain by (try apply render_nonnil; assumption). rewrite render_abs, cstack_render by exact HC. rewrite inside_render by exact HF'. rewrite app_assoc. reflexivity.
Qed.

(** ** os.MkdirAll's parents *)
Lemma drop_while_app f l : exists t, l = t ++ drop_while f l /\ Forall (fun c => f c = true) t.
Proof.
  induction l as [|c l (t & E & H)]; [exists []; auto|]. cbn [drop_while]. destruct (f c) eqn:EF; [|exists []; auto]. exists (c :: t). cbn [app]. rewrite <- E. auto.
Qed.
Lemma drop_while_head f l c r : drop_while f l = c :: r -> f c = false.
Proof. induction l as [|x l IH]; cbn [drop_while]; [discriminate|]. destruct (f x) eqn:E; [exact IH|]. intros H. injection H as -> ->. exact E. Qed.
Lemma parent_leading s p : parent_of s = Some p -> p <> [] /\ leading p s /\ (length p < length s)%nat.
Proof.
  unfold parent_of. set (f := fun c => negb (beqb c slash)). set (g := fun c => beqb c slash). destruct (drop_while f (drop_while g (rev s))) as [|x [|y t]] eqn:E; try discriminate. intros H. injection H as <-.
  pose proof (drop_while_head _ _ _ _ E) as Hx. unfold f in Hx. apply negb_false_iff, beqb_eq in Hx. subst x.
  destruct (drop_while_app g (rev s)) as (t1 & E1 & _). destruct (drop_while_app f (drop_while g (rev s))) as (t2 & E2 & _). rewrite E in E2. rewrite E2 in E1.
  apply (f_equal (@rev _)) in E1. rewrite rev_involutive, !rev_app_distr in E1. 
  change (rev (slash :: y :: t)) with (rev (y :: t) ++ [slash]) in E1. rewrite <- !app_assoc in E1.
  split; [cbn [rev]; intros A; apply app_eq_nil in A as [_ A]; discriminate|]. split; [exists (rev t2 ++ rev t1); exact E1|]. rewrite E1, !app_length. cbn [length app rev]. rewrite ?app_length. cbn [length]. lia.
Qed.
Lemma drop_while_all f t l : Forall (fun c => f c = true) t -> drop_while f (t ++ l) = drop_while f l.
Proof. induction 1 as [|c t H _ IH]; [reflexivity|]. cbn [app drop_while]. rewrite H. exact IH. Qed.
Lemma parent_child x c : ~ In slash c -> c <> [] -> parent_of (x ++ slash :: c) = match x with [] => None | _ => Some x end.
Proof.
  intros Hc Hn. unfold parent_of. rewrite rev_app_distr. cbn [rev]. destruct (rev c) as [|y r] eqn:ER; [apply (f_equal (@rev _)) in ER; rewrite rev_involutive in ER; contradiction|].
  assert (HA : Forall (fun c => negb (beqb c slash) = true) (y :: r)). { rewrite <- ER. apply Forall_forall. intros z Hz. apply negb_true_iff, beqb_neq. intros ->. apply Hc, in_rev, Hz. }
  inversion HA as [|? ? HB HD]; subst. apply negb_true_iff in HB. cbn [app drop_while]. rewrite HB. change (y :: (r ++ [slash]) ++ rev x) with ((y :: r) ++ [slash] ++ rev x) || idtac.
  replace (y :: (r ++ [slash]) ++ rev x) with ((y :: r) ++ slash :: rev x) by (cbn [app]; rewrite <- app_assoc; reflexivity).
  rewrite drop_while_all by exact HA. cbn [drop_while]. change (negb (beqb slash slash)) with false. cbv iota.
  destruct x as [|z x]; [reflexivity|]. destruct (rev (z :: x)) as [|a l] eqn:EX; [apply (f_equal (@rev _)) in EX; rewrite rev_involutive in EX; discriminate|]. rewrite <- EX, rev_involutive. reflexivity.
Qed.
Lemma parent_alone c : ~ In slash c -> parent_of c = None.
Proof.
  intros Hc. destruct c as [|x c0] eqn:EC; [reflexivity|]. rewrite <- EC in *. unfold parent_of. destruct (drop_while_app (fun c => beqb c slash) (rev c)) as (t & E & H).
  set (d := drop_while (fun c => beqb c slash) (rev c)) in *. replace (drop_while (fun c => negb (beqb c slash)) d) with (@nil byte); [reflexivity|].
  symmetry. rewrite <- (app_nil_r d) at 1. rewrite drop_while_all; [reflexivity|]. apply Forall_forall. intros z Hz. apply negb_true_iff, beqb_neq. intros ->. apply Hc, in_rev. rewrite E. apply in_or_app. right. exact Hz.
Qed.
(** the parent of a path below [dest] is below [dest] or leads to it *)
Lemma parent_inside dest p p' : inside dest p -> parent_of p = Some p' -> inside dest p' \/ leading p' dest \/ leading p' (Clean dest).
Proof.
  intros HI HP. destruct (parent_leading _ _ HP) as (_ & HL & _). destruct HI as [->|(cs & HF & ->)]; [auto|].
  destruct cs as [|c cs _] using rev_ind; [cbn [sub_path] in *; auto|]. apply Forall_app in HF as [HF Hc]. inversion Hc as [|? ? Hn _]; subst. destruct Hn as (N1 & N2 & N3 & N4).
  left. right. exists cs. split; [exact HF|]. unfold sub_path in HP |- *.
  destruct (cs ++ [c]) as [|? ?] eqn:EC; [apply app_eq_nil in EC as [_ EC]; discriminate|]. rewrite <- EC in HP. clear EC.
  assert (EJ : forall b, cs <> [] -> b ++ join_comps (cs ++ [c]) = (b ++ join_comps cs) ++ slash :: c) by (intros b Hcs; rewrite join_app by (try exact Hcs; discriminate); cbn [join_comps]; rewrite app_assoc; reflexivity).
  destruct (bytes_eqb (Clean dest) [dot]) eqn:E1.
  - apply bytes_eqb_eq in E1. destruct cs as [|d cs0] eqn:ES; [cbn [app join_comps] in HP; rewrite (parent_alone c N4) in HP; discriminate|]. rewrite <- ES in *.
    pose proof (EJ [] ltac:(subst; discriminate)) as EJ'. cbn [app] in EJ'. rewrite EJ', (parent_child _ c N4 N1) in HP. destruct (join_comps cs); [discriminate|]. injection HP as <-. reflexivity.
  - destruct (bytes_eqb (Clean dest) [slash]) eqn:E2.
    + apply bytes_eqb_eq in E2. destruct cs as [|d cs0] eqn:ES; [cbn [app join_comps] in HP; change (slash :: c) with ([] ++ slash :: c) in HP; rewrite (parent_child [] c N4 N1) in HP; discriminate|]. rewrite <- ES in *.
      pose proof (EJ [slash] ltac:(subst; discriminate)) as EJ'. cbn [app] in EJ'. rewrite EJ' in HP. change (slash :: join_comps cs ++ slash :: c) with ((slash :: join_comps cs) ++ slash :: c) in HP.
      rewrite (parent_child _ c N4 N1) in HP. injection HP as <-. reflexivity.
    + destruct cs as [|d cs0] eqn:ES.
      * cbn [app join_comps] in HP. rewrite (parent_child _ c N4 N1) in HP. destruct (Clean dest); [discriminate|]. injection HP as <-. reflexivity.
      * rewrite <- ES in *. pose proof (EJ (Clean dest ++ [slash]) ltac:(subst; discriminate)) as EJ'. rewrite <- !app_assoc in EJ'. cbn [app] in EJ'. rewrite EJ' in HP.
        change (Clean dest ++ slash :: join_comps cs ++ slash :: c) with (Clean dest ++ (slash :: join_comps cs) ++ slash :: c) in HP. rewrite app_assoc in HP.
        rewrite (parent_child _ c N4 N1) in HP. destruct (Clean dest ++ slash :: join_comps cs) eqn:EE; [apply app_eq_nil in EE as [_ EE]; discriminate|]. injection HP as <-. reflexivity.
Qed.
Lemma leading_trans a b c : leading a b -> leading b c -> leading a c.
Proof. intros [r ->] [r' ->]. exists (r ++ slash :: r'). rewrite <- app_assoc. reflexivity. Qed.
