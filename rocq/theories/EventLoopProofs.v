(** Invariants of the event loop's objects. *)
From Verif Require Import Base EventLoopModel EventLoopSpec.
Local Open Scope nat_scope.

Lemma fset_eq {A} (f : nat -> A) i x : fset f i x i = x.
Proof. unfold fset. now rewrite Nat.eqb_refl. Qed.
Lemma fset_ne {A} (f : nat -> A) i x j : j <> i -> fset f i x j = f j.
Proof. unfold fset. intros H. apply Nat.eqb_neq in H. now rewrite H. Qed.

Lemma owned_spec h o : owned h o = true <-> o = Some h.
Proof. destruct o as [x|]; cbn; [|split; discriminate]. rewrite Nat.eqb_eq. split; congruence. Qed.
Lemma find_own (f : nat -> option nat) h :
  match find (fun i => owned h (f i)) (seq 0 pool_capacity) with
  | Some i => i < pool_capacity /\ f i = Some h
  | None => forall i, i < pool_capacity -> f i <> Some h
  end.
Proof.
  destruct (find _ _) as [i|] eqn:E.
  - apply find_some in E as [E1 E2]. apply in_seq in E1. apply owned_spec in E2. split; [lia|exact E2].
  - intros i Hi Hf. pose proof (find_none _ _ E i) as N. cbn beta in N. rewrite (proj2 (owned_spec h (f i)) Hf) in N. discriminate N. apply in_seq. lia.
Qed.
Lemma find_t_spec s h : match find_t s h with Some i => i < pool_capacity /\ t_own (e_t s i) = Some h | None => forall i, i < pool_capacity -> t_own (e_t s i) <> Some h end.
Proof. exact (find_own (fun i => t_own (e_t s i)) h). Qed.
Lemma find_l_spec s h : match find_l s h with Some i => i < pool_capacity /\ l_own (e_l s i) = Some h | None => forall i, i < pool_capacity -> l_own (e_l s i) <> Some h end.
Proof. exact (find_own (fun i => l_own (e_l s i)) h). Qed.
Lemma find_a_spec s h : match find_a s h with Some i => i < pool_capacity /\ a_own (e_a s i) = Some h | None => forall i, i < pool_capacity -> a_own (e_a s i) <> Some h end.
Proof. exact (find_own (fun i => a_own (e_a s i)) h). Qed.

(** * One pool *)
(** [own]: owners of the objects; [fr]: free ids; [n]: creations so far; [cl]: no owner, so nothing open. *)
Definition pool_ok (own : nat -> option nat) (fr : list nat) (n : nat) : Prop :=
  NoDup fr /\ (forall i, In i fr -> i < pool_capacity /\ own i = None) /\
  (forall i h, own i = Some h -> i < pool_capacity /\ h < n) /\
  (forall i j h, own i = Some h -> own j = Some h -> i = j).
Lemma po_bump own fr n : pool_ok own fr n -> pool_ok own fr (S n).
Proof. intros (A & B & C & D). split; [exact A|]. split; [exact B|]. split; [|exact D]. intros i h H. apply C in H. lia. Qed.
Lemma po_ext own own' fr n : (forall i, own' i = own i) -> pool_ok own fr n -> pool_ok own' fr n.
Proof.
  intros E (A & B & C & D). split; [exact A|]. split; [intros i H; rewrite E; auto|]. split; [intros i h; rewrite E; auto|]. intros i j h. rewrite !E. apply D.
Qed.
Lemma po_drop own i fr n : pool_ok own (i :: fr) n -> pool_ok own fr n.
Proof. intros (A & B & C & D). inversion A; subst. split; [assumption|]. split; [intros j H; apply B; now right|]. auto. Qed.
Lemma po_take own i fr n : pool_ok own (i :: fr) n -> pool_ok (fset own i (Some n)) fr (S n).
Proof.
  intros (A & B & C & D). inversion A; subst. split; [assumption|]. split; [|split].
  - intros j H. rewrite fset_ne by (intros ->; contradiction). apply B. now right.
  - intros j h H. destruct (Nat.eq_dec j i) as [->|Hn]; [rewrite fset_eq in H; injection H as <-; split; [apply B; now left|lia]|].
    rewrite fset_ne in H by exact Hn. apply C in H. lia.
  - intros j k h Hj Hk. destruct (Nat.eq_dec j i) as [->|Hn], (Nat.eq_dec k i) as [->|Hm]; auto.
    + rewrite fset_eq in Hj. rewrite fset_ne in Hk by exact Hm. injection Hj as <-. apply C in Hk. lia.
    + rewrite fset_eq in Hk. rewrite fset_ne in Hj by exact Hn. injection Hk as <-. apply C in Hj. lia.
    + rewrite fset_ne in Hj, Hk by assumption. eapply D; eauto.
Qed.
Lemma po_give own i h fr n : own i = Some h -> pool_ok own fr n -> pool_ok (fset own i None) (fr ++ [i]) n.
Proof.
  intros Hi (A & B & C & D). split; [|split; [|split]].
  - rewrite <- (rev_involutive (fr ++ [i])). apply NoDup_rev. rewrite rev_app_distr. cbn [rev app]. constructor; [|now apply NoDup_rev].
    rewrite <- in_rev. intros H. apply B in H as [_ H]. congruence.
  - intros j H. apply in_app_or in H as [H|[<-|[]]]; [|split; [eapply C; eauto|apply fset_eq]].
    apply B in H as [H1 H2]. split; [exact H1|]. destruct (Nat.eq_dec j i) as [->|Hn]; [apply fset_eq|now rewrite fset_ne].
  - intros j x H. destruct (Nat.eq_dec j i) as [->|Hn]; [rewrite fset_eq in H; discriminate|]. rewrite fset_ne in H by exact Hn. auto.
  - intros j k x Hj Hk. destruct (Nat.eq_dec j i) as [->|Hn]; [rewrite fset_eq in Hj; discriminate|].
    destruct (Nat.eq_dec k i) as [->|Hm]; [rewrite fset_eq in Hk; discriminate|]. rewrite fset_ne in Hj, Hk by assumption. eapply D; eauto.
Qed.

Definition town (s : loop) i := t_own (e_t s i).
Definition lown (s : loop) i := l_own (e_l s i).
Definition aown (s : loop) i := a_own (e_a s i).
Record wf (s : loop) : Prop := mkWf {
  w_t : pool_ok (town s) (e_tf s) (e_next s);
  w_l : pool_ok (lown s) (e_lf s) (e_next s);
  w_a : pool_ok (aown s) (e_af s) (e_next s);
  w_tc : forall i, town s i = None <-> t_fd (e_t s i) = None;
  w_lc : forall i, lown s i = None -> l_fd (e_l s i) = None /\ l_set (e_l s i) = false;
  w_ac : forall i, aown s i = None -> a_fd (e_a s i) = false }.

Lemma wf_new : wf loop_new.
Proof.
  assert (P : forall f : nat -> option nat, (forall i, f i = None) -> pool_ok f (seq 0 pool_capacity) 0).
  { intros f H. split; [apply seq_NoDup|]. split; [intros i Hi; apply in_seq in Hi; split; [lia|apply H]|]. split; [intros i h E; rewrite H in E; discriminate|].
    intros i j h E. rewrite H in E. discriminate. }
  constructor; try (apply P; reflexivity); cbn; try tauto; auto.
Qed.

(** Rewriting of the components after an update. *)
Lemma town_set s i x j : town (set_t s i x) j = fset (town s) i (t_own x) j.
Proof. unfold town, set_t, fset. cbn. now destruct (j =? i). Qed.
Lemma lown_set s i x j : lown (set_l s i x) j = fset (lown s) i (l_own x) j.
Proof. unfold lown, set_l, fset. cbn. now destruct (j =? i). Qed.
Lemma aown_set s i x j : aown (set_a s i x) j = fset (aown s) i (a_own x) j.
Proof. unfold aown, set_a, fset. cbn. now destruct (j =? i). Qed.
Lemma fset_same {A} (f : nat -> A) i j : fset f i (f i) j = f j.
Proof. unfold fset. destruct (Nat.eqb_spec j i) as [->|]; reflexivity. Qed.

(** An update of one timer that keeps its owner. *)
Lemma wf_set_t s i x : wf s -> t_own x = town s i -> (t_own x = None <-> t_fd x = None) -> wf (set_t s i x).
Proof.
  intros W E C. constructor; try apply W.
  - eapply po_ext; [|apply W]. intros j. rewrite town_set, E. apply fset_same.
  - intros j. rewrite town_set. cbn [set_t e_t]. unfold fset. destruct (Nat.eqb_spec j i) as [->|]; [exact C|apply W].
Qed.
Lemma wf_set_l s i x : wf s -> l_own x = lown s i -> (l_own x = None -> l_fd x = None /\ l_set x = false) -> wf (set_l s i x).
Proof.
  intros W E C. constructor; try apply W.
  - eapply po_ext; [|apply W]. intros j. rewrite lown_set, E. apply fset_same.
  - intros j. rewrite lown_set. cbn [set_l e_l]. unfold fset. destruct (Nat.eqb_spec j i) as [->|]; [exact C|apply W].
Qed.
Lemma wf_set_a s i x : wf s -> a_own x = aown s i -> (a_own x = None -> a_fd x = false) -> wf (set_a s i x).
Proof.
  intros W E C. constructor; try apply W.
  - eapply po_ext; [|apply W]. intros j. rewrite aown_set, E. apply fset_same.
  - intros j. rewrite aown_set. cbn [set_a e_a]. unfold fset. destruct (Nat.eqb_spec j i) as [->|]; [exact C|apply W].
Qed.
Lemma wf_bump s : wf s -> wf (bump s).
Proof. intros W. constructor; try apply W; apply po_bump; apply W. Qed.

Lemma wf_exec s o : wf s -> wf (fst (exec s o)).
Proof.
  intros W. destruct o; cbn [exec].
  - destruct (e_tf s) as [|i r] eqn:F; [exact W|]. destruct (_ && _); cbn [fst].
    + constructor; try apply W; cbn [bump set_t free_t e_t e_l e_a e_tf e_lf e_af e_next].
      * eapply po_ext; [|apply po_take; rewrite <- F; apply W]. intros j. unfold town. cbn [bump set_t free_t e_t]. unfold fset. now destruct (j =? i).
      * apply po_bump. apply W.
      * apply po_bump. apply W.
      * intros j. unfold town. cbn [bump set_t free_t e_t]. unfold fset. destruct (j =? i); [cbn; split; discriminate|apply W].
    + constructor; try apply W. cbn [free_t e_tf e_next]. eapply po_drop. rewrite <- F. apply W.
  - pose proof (find_t_spec s h) as P. destruct (find_t s h) as [i|]; [|exact W]. destruct P as [Hi P]. apply wf_set_t; [exact W|reflexivity|].
    cbn [t_own t_fd]. pose proof (w_tc s W i) as C. unfold town in C. rewrite P in *. destruct (t_fd (e_t s i)); cbn [option_map]; split; intros Q; try discriminate. destruct C as [_ C]. discriminate C. reflexivity.
  - pose proof (find_t_spec s h) as P. destruct (find_t s h) as [i|]; [|exact W]. destruct P as [Hi P]. apply wf_set_t; [exact W|reflexivity|].
    cbn [t_own t_fd]. pose proof (w_tc s W i) as C. unfold town in C. rewrite P in *. destruct (t_fd (e_t s i)); cbn [option_map]; split; intros Q; try discriminate. destruct C as [_ C]. discriminate C. reflexivity.
  - pose proof (find_t_spec s h) as P. destruct (find_t s h) as [i|]; [|exact W]. destruct P as [Hi P]. cbn [fst].
    constructor; try apply W; cbn [free_t set_t e_tf e_next].
    + eapply po_ext; [|apply (po_give (town s) i h); [exact P|apply W]]. intros j. unfold town. cbn [free_t set_t e_t]. unfold fset. now destruct (j =? i).
    + intros j. unfold town. cbn [free_t set_t e_t]. unfold fset. destruct (j =? i); [cbn; tauto|apply W].
  - pose proof (find_t_spec s h) as P. destruct (find_t s h) as [i|]; [|exact W]. destruct P as [Hi P]. destruct (t_fd (e_t s i)) as [[]|]; try exact W.
    apply wf_set_t; [exact W|reflexivity|]. cbn [t_own t_fd]. rewrite P. split; discriminate.
  - destruct (e_lf s) as [|i r] eqn:F; [exact W|]. cbn [fst]. constructor; try apply W; cbn [bump set_l free_l e_t e_l e_a e_tf e_lf e_af e_next].
    + apply po_bump. apply W.
    + eapply po_ext; [|apply po_take; rewrite <- F; apply W]. intros j. unfold lown. cbn [bump set_l free_l e_l]. unfold fset. now destruct (j =? i).
    + apply po_bump. apply W.
    + intros j. unfold lown. cbn [bump set_l free_l e_l]. unfold fset. destruct (j =? i); [cbn; discriminate|apply W].
  - pose proof (find_l_spec s h) as P. destruct (find_l s h) as [i|]; [|exact W]. destruct P as [Hi P]. apply wf_set_l; [exact W|reflexivity|]. cbn [l_own]. rewrite P. discriminate.
  - pose proof (find_l_spec s h) as P. destruct (find_l s h) as [i|]; [|exact W]. destruct P as [Hi P]. destruct (l_fd (e_l s i)), ok; try exact W. cbn [fst].
    apply wf_bump, wf_set_l; [exact W|reflexivity|]. cbn [l_own]. rewrite P. discriminate.
  - pose proof (find_l_spec s h) as P. destruct (find_l s h) as [i|]; [|exact W]. destruct P as [Hi P]. apply wf_set_l; [exact W|reflexivity|]. cbn [l_own]. rewrite P. discriminate.
  - pose proof (find_l_spec s h) as P. destruct (find_l s h) as [i|]; [|exact W]. destruct P as [Hi P]. cbn [fst].
    constructor; try apply W; cbn [free_l set_l e_lf e_next].
    + eapply po_ext; [|apply (po_give (lown s) i h); [exact P|apply W]]. intros j. unfold lown. cbn [free_l set_l e_l]. unfold fset. now destruct (j =? i).
    + intros j. unfold lown. cbn [free_l set_l e_l]. unfold fset. destruct (j =? i); [cbn; tauto|apply W].
  - destruct (e_af s) as [|i r] eqn:F; [exact W|]. cbn [fst]. constructor; try apply W; cbn [bump set_a free_a e_t e_l e_a e_tf e_lf e_af e_next].
    + apply po_bump. apply W.
    + apply po_bump. apply W.
    + eapply po_ext; [|apply po_take; rewrite <- F; apply W]. intros j. unfold aown. cbn [bump set_a free_a e_a]. unfold fset. now destruct (j =? i).
    + intros j. unfold aown. cbn [bump set_a free_a e_a]. unfold fset. destruct (j =? i); [cbn; discriminate|apply W].
  - pose proof (find_a_spec s h) as P. destruct (find_a s h) as [i|]; [|exact W]. destruct P as [Hi P]. destruct (_ && _); [|exact W].
    apply wf_set_a; [exact W|reflexivity|]. cbn [a_own]. rewrite P. discriminate.
  - pose proof (find_a_spec s h) as P. destruct (find_a s h) as [i|]; [|exact W]. destruct P as [Hi P]. destruct (a_fd (e_a s i)); [|exact W]. cbn [fst].
    constructor; try apply W; cbn [free_a set_a e_af e_next].
    + eapply po_ext; [|apply (po_give (aown s) i h); [exact P|apply W]]. intros j. unfold aown. cbn [free_a set_a e_a]. unfold fset. now destruct (j =? i).
    + intros j. unfold aown. cbn [free_a set_a e_a]. unfold fset. destruct (j =? i); [cbn; tauto|apply W].
  - pose proof (find_l_spec s h) as P. destruct (find_a s a) as [k|]; [|exact W]. destruct (find_l s h) as [i|]; [|exact W]. destruct P as [Hi P].
    destruct (l_fd (e_l s i)), (a_fd (e_a s k) && ok); try exact W. cbn [fst]. apply wf_bump, wf_set_l; [exact W|reflexivity|]. cbn [l_own]. rewrite P. discriminate.
Qed.
Lemma wf_execs os : forall s, wf s -> wf (fst (execs s os)).
Proof.
  induction os as [|o r IH]; intros s W; [exact W|]. cbn [execs]. pose proof (wf_exec s o W) as W1. destruct (exec s o) as [s1 t1].
  specialize (IH s1 W1). destruct (execs s1 r) as [s2 t2]. exact IH.
Qed.

(** * Timers follow what their owners expect *)
Definition shown (x : tstate) : tview := match x with TOff => VIdle | TArmed => VRunning | TExpired => VDue end.
Definition tviews (s : loop) (t : list act) : Prop :=
  forall h, match find_t s h with Some i => option_map shown (t_fd (e_t s i)) = Some (view h t) | None => view h t = VGone end.
Lemma view_app h a b : view h (a ++ b) = fold_left (view1 h) b (view h a).
Proof. unfold view. apply fold_left_app. Qed.

(** [find_t] is determined by the owners. *)
Lemma find_t_iff s h i : wf s -> (find_t s h = Some i <-> town s i = Some h).
Proof.
  intros W. pose proof (find_t_spec s h) as P. split; intros H.
  - rewrite H in P. apply P.
  - destruct (find_t s h) as [j|]; [|exfalso; eapply P; [eapply (w_t s W); eauto|exact H]]. destruct P as [_ P]. f_equal. eapply (w_t s W); eauto.
Qed.
Lemma find_t_none s h : wf s -> (find_t s h = None <-> forall i, town s i <> Some h).
Proof.
  intros W. split; intros H.
  - intros i E. apply find_t_iff in E; [congruence|exact W].
  - destruct (find_t s h) as [i|] eqn:E; [|reflexivity]. exfalso. apply find_t_iff in E; [|exact W]. exact (H i E).
Qed.
(** The same property without [find_t]. *)
Definition tviews' (s : loop) (t : list act) : Prop :=
  (forall i h, town s i = Some h -> option_map shown (t_fd (e_t s i)) = Some (view h t)) /\
  (forall h, (forall i, town s i <> Some h) -> view h t = VGone).
Lemma tviews_iff s t : wf s -> tviews s t <-> tviews' s t.
Proof.
  intros W. split.
  - intros H. split.
    + intros i h E. specialize (H h). apply (find_t_iff s h i W) in E. now rewrite E in H.
    + intros h N. specialize (H h). apply (find_t_none s h W) in N. now rewrite N in H.
  - intros [H1 H2] h. destruct (find_t s h) as [i|] eqn:E; [apply H1; now apply find_t_iff|apply H2; now apply find_t_none].
Qed.
(** Nothing about timers changes. *)
Definition timeless (a : act) : Prop := forall h v, view1 h v a = v.
Lemma view_timeless h t l : Forall timeless l -> view h (t ++ l) = view h t.
Proof. intros H. rewrite view_app. induction H as [|a l Ha _ IH]; [reflexivity|]. cbn [fold_left]. now rewrite Ha. Qed.
Lemma tv_same s s' t l : (forall i, e_t s' i = e_t s i) -> Forall timeless l -> tviews' s t -> tviews' s' (t ++ l).
Proof.
  intros E H [H1 H2]. split.
  - intros i h O. unfold town in O. rewrite E in *. rewrite view_timeless by exact H. now apply H1.
  - intros h N. rewrite view_timeless by exact H. apply H2. intros i. specialize (N i). unfold town in *. now rewrite E in N.
Qed.
(** One timer changes, together with what its owner expects. *)
Lemma tv_upd s s' t a i h x : wf s -> town s i = Some h -> (forall j, e_t s' j = fset (e_t s) i (mkT (Some x) (Some h)) j) ->
  (forall h' v, h' <> h -> view1 h' v a = v) -> view1 h (view h t) a = shown x -> tviews' s t -> tviews' s' (t ++ [a]).
Proof.
  intros W O E A V [H1 H2]. split.
  - intros j h' O'. unfold town in O'. rewrite view_app. cbn [fold_left]. rewrite E in *. unfold fset in *. destruct (Nat.eqb_spec j i) as [->|Hn]; cbn [t_own t_fd option_map] in *.
    + injection O' as <-. now rewrite V.
    + rewrite A; [now apply H1|]. intros ->. apply Hn. eapply (w_t s W); eauto.
  - intros h' N. rewrite view_app. cbn [fold_left]. assert (Hn : h' <> h). { intros ->. apply (N i). unfold town. rewrite E. unfold fset. now rewrite Nat.eqb_refl. }
    rewrite A by exact Hn. apply H2. intros j Ej. apply (N j). unfold town in *. rewrite E. unfold fset. destruct (Nat.eqb_spec j i) as [->|]; [congruence|exact Ej].
Qed.
Lemma view_some s t i h : wf s -> tviews' s t -> town s i = Some h -> exists x, t_fd (e_t s i) = Some x /\ view h t = shown x.
Proof.
  intros W [H1 _] O. specialize (H1 i h O). destruct (t_fd (e_t s i)) as [x|]; [|discriminate]. exists x. split; [reflexivity|]. cbn in H1. congruence.
Qed.

Lemma timeless_other a : match a with ATimerNew _ | ATimerStart _ | ATimerStop _ | ATimerDel _ | ATick _ | ATimerCall _ => False | _ => True end -> timeless a.
Proof. intros H h v. destruct a; try contradiction; reflexivity. Qed.
Ltac timeless := repeat (apply Forall_cons; [apply timeless_other; exact I|]); apply Forall_nil.

Lemma tv_exec s o t : wf s -> tviews' s t -> tviews' (fst (exec s o)) (t ++ snd (exec s o)).
Proof.
  intros W V. assert (K : forall l, Forall timeless l -> tviews' s (t ++ l)) by (intros l Hl; now apply (tv_same s)).
  destruct o; cbn [exec].
  - destruct (e_tf s) as [|i r] eqn:F; [apply K; timeless|]. destruct (_ && _); cbn [fst snd].
    + assert (Of : town s i = None). { destruct (w_t s W) as (_ & B & _). rewrite F in B. apply B. now left. }
      assert (Nx : forall j, town s j <> Some (e_next s)). { intros j E. apply (w_t s W) in E. lia. }
      destruct V as [V1 V2]. split.
      * intros j h O. unfold town in O. rewrite view_app. cbn [fold_left view1]. cbn [bump set_t free_t e_t] in O |- *. unfold fset in *. destruct (Nat.eqb_spec j i) as [->|Hn]; cbn [t_own t_fd option_map] in *.
        -- injection O as <-. now rewrite Nat.eqb_refl.
        -- destruct (Nat.eqb_spec (e_next s) h) as [<-|Hh]; [exfalso; exact (Nx j O)|]. now apply V1.
      * intros h N. rewrite view_app. cbn [fold_left view1]. destruct (Nat.eqb_spec (e_next s) h) as [<-|Hh].
        -- exfalso. apply (N i). unfold town. cbn [bump set_t free_t e_t]. now rewrite fset_eq.
        -- apply V2. intros j Ej. apply (N j). unfold town in *. cbn [bump set_t free_t e_t]. unfold fset. destruct (Nat.eqb_spec j i) as [->|]; [congruence|exact Ej].
    + apply (tv_same s); [reflexivity|timeless|exact V].
  - pose proof (find_t_spec s h) as P. destruct (find_t s h) as [i|]; [|cbn [fst snd]; rewrite app_nil_r; exact V]. destruct P as [Hi P]. cbn [fst snd].
    destruct (view_some s t i h W V P) as (x & Ex & Vx). apply (tv_upd s _ t _ i h TArmed W P); [|intros h' v Hn; cbn; destruct (Nat.eqb_spec h h'); congruence|cbn; now rewrite Nat.eqb_refl|exact V].
    intros j. cbn [set_t e_t]. unfold town in P. now rewrite Ex, P.
  - pose proof (find_t_spec s h) as P. destruct (find_t s h) as [i|]; [|cbn [fst snd]; rewrite app_nil_r; exact V]. destruct P as [Hi P]. cbn [fst snd].
    destruct (view_some s t i h W V P) as (x & Ex & Vx). apply (tv_upd s _ t _ i h TOff W P); [|intros h' v Hn; cbn; destruct (Nat.eqb_spec h h'); congruence|cbn; now rewrite Nat.eqb_refl|exact V].
    intros j. cbn [set_t e_t]. unfold town in P. now rewrite Ex, P.
  - pose proof (find_t_spec s h) as P. destruct (find_t s h) as [i|]; [|cbn [fst snd]; rewrite app_nil_r; exact V]. destruct P as [Hi P]. cbn [fst snd].
    destruct V as [V1 V2]. split.
    + intros j h' O. unfold town in O. rewrite view_app. cbn [fold_left view1]. cbn [set_t free_t e_t] in O |- *. unfold fset in *. destruct (Nat.eqb_spec j i) as [->|Hn]; cbn [t_own t_fd option_map] in *; [discriminate|].
      destruct (Nat.eqb_spec h h') as [<-|Hh]; [|now apply V1]. exfalso. apply Hn. eapply (w_t s W); eauto.
    + intros h' N. rewrite view_app. cbn [fold_left view1]. destruct (Nat.eqb_spec h h') as [<-|Hh]; [reflexivity|].
      apply V2. intros j Ej. apply (N j). unfold town in *. cbn [set_t free_t e_t]. unfold fset. destruct (Nat.eqb_spec j i) as [->|]; [congruence|exact Ej].
  - pose proof (find_t_spec s h) as P. destruct (find_t s h) as [i|]; [|cbn [fst snd]; rewrite app_nil_r; exact V]. destruct P as [Hi P].
    destruct (view_some s t i h W V P) as (x & Ex & Vx). rewrite Ex. destruct x; cbn [fst snd]; try (rewrite app_nil_r; exact V).
    apply (tv_upd s _ t _ i h TExpired W P); [|intros h' v Hn; cbn; destruct (Nat.eqb_spec h h'); congruence|cbn; now rewrite Nat.eqb_refl, Vx|exact V].
    intros j. cbn [set_t e_t]. unfold town in P. now rewrite P.
  - destruct (e_lf s); cbn [fst snd]; [apply K; timeless|]. apply (tv_same s); [reflexivity|timeless|exact V].
  - destruct (find_l s h); cbn [fst snd]; apply (tv_same s); try reflexivity; try timeless; exact V.
  - destruct (find_l s h) as [i|]; [|apply K; timeless]. destruct (l_fd (e_l s i)), ok; cbn [fst snd]; apply (tv_same s); try reflexivity; try timeless; exact V.
  - destruct (find_l s h); cbn [fst snd]; apply (tv_same s); try reflexivity; try timeless; exact V.
  - destruct (find_l s h); cbn [fst snd]; apply (tv_same s); try reflexivity; try timeless; exact V.
  - destruct (e_af s); cbn [fst snd]; [apply K; timeless|]. apply (tv_same s); [reflexivity|timeless|exact V].
  - destruct (find_a s h) as [i|]; [|apply K; timeless]. destruct (_ && _); cbn [fst snd]; apply (tv_same s); try reflexivity; try timeless; exact V.
  - destruct (find_a s h) as [i|]; [|apply K; timeless]. destruct (a_fd (e_a s i)); cbn [fst snd]; apply (tv_same s); try reflexivity; try timeless; exact V.
  - destruct (find_a s a) as [k|]; [|apply K; timeless]. destruct (find_l s h) as [i|]; [|apply K; timeless]. destruct (l_fd (e_l s i)), (a_fd (e_a s k) && ok); cbn [fst snd]; apply (tv_same s); try reflexivity; try timeless; exact V.
Qed.

(** * Calls happen when due *)
Definition timely (t : list act) : Prop := forall pre h post, t = pre ++ ATimerCall h :: post -> view h pre = VDue.
Definition nocall (a : act) : Prop := match a with ATimerCall _ => False | _ => True end.
Lemma timely_snoc t a : timely t -> (forall h, a = ATimerCall h -> view h t = VDue) -> timely (t ++ [a]).
Proof.
  intros T H pre h post E. destruct post as [|b post] using rev_ind.
  - apply app_inj_tail in E as [<- E]. now apply H.
  - clear IHpost. change (pre ++ ATimerCall h :: post ++ [b]) with (pre ++ (ATimerCall h :: post) ++ [b]) in E. rewrite app_assoc in E.
    apply app_inj_tail in E as [E _]. eapply T; eauto.
Qed.
Lemma timely_app l : forall t, timely t -> Forall nocall l -> timely (t ++ l).
Proof.
  induction l as [|a l IH]; intros t T H; [now rewrite app_nil_r|]. inversion H; subst. change (a :: l) with ([a] ++ l). rewrite app_assoc.
  apply IH; [|assumption]. apply timely_snoc; [exact T|]. intros h ->. contradiction.
Qed.
Lemma exec_nocall s o : Forall nocall (snd (exec s o)).
Proof.
  destruct o; cbn [exec]; repeat match goal with |- context [match ?x with _ => _ end] => destruct x end; cbn [snd]; repeat constructor.
Qed.

(** The three together. *)
Definition good (s : loop) (t : list act) : Prop := wf s /\ tviews' s t /\ timely t.
Lemma good_new : good loop_new [].
Proof.
  split; [exact wf_new|]. split; [split|].
  - intros i h H. discriminate.
  - reflexivity.
  - intros [|] h post E; discriminate.
Qed.
Lemma good_exec s t o : good s t -> good (fst (exec s o)) (t ++ snd (exec s o)).
Proof.
  intros (W & V & T). split; [now apply wf_exec|]. split; [now apply tv_exec|]. apply timely_app; [exact T|apply exec_nocall].
Qed.
Lemma good_execs os : forall s t, good s t -> good (fst (execs s os)) (t ++ snd (execs s os)).
Proof.
  induction os as [|o r IH]; intros s t G; [cbn; now rewrite app_nil_r|]. cbn [execs]. pose proof (good_exec s t o G) as G1. destruct (exec s o) as [s1 t1].
  specialize (IH s1 _ G1). destruct (execs s1 r) as [s2 t2]. cbn [fst snd] in *. now rewrite app_assoc.
Qed.
Lemma good_quiet s t l : good s t -> Forall timeless l -> Forall nocall l -> good s (t ++ l).
Proof. intros (W & V & T) H N. split; [exact W|]. split; [now apply (tv_same s)|now apply timely_app]. Qed.

Lemma good_called s t a p s1 t1 x : called s a p = (s1, t1, x) -> nocall a -> timeless a -> good s t -> good s1 (t ++ t1).
Proof.
  unfold called. pose proof (fun t G => good_execs (fst p) s t G) as K. destruct (execs s (fst p)) as [s2 t2]. intros E N T G. injection E as <- <- _.
  change (a :: t2) with ([a] ++ t2). rewrite app_assoc. apply (K (t ++ [a])). apply good_quiet; [exact G|now constructor|now constructor].
Qed.
Lemma good_dispatch s t e p s1 t1 x : dispatch s e p = (s1, t1, x) -> good s t -> good s1 (t ++ t1).
Proof.
  unfold dispatch. intros E G. assert (K : forall s' l, s' = s -> l = [] -> good s' (t ++ l)) by (intros s' l -> ->; now rewrite app_nil_r).
  destruct (en_obj e) as [i|i|i|].
  - destruct (t_fd (e_t s i)) as [[]|] eqn:F; try (injection E as <- <- <-; now apply K).
    destruct G as (W & V & T). destruct (t_own (e_t s i)) as [h|] eqn:O.
    2:{ exfalso. pose proof (proj1 (w_tc s W i) O) as Q. congruence. }
    assert (G1 : good (set_t s i (mkT (Some TOff) (Some h))) (t ++ [ATimerCall h])).
    { split; [apply wf_set_t; [exact W|now rewrite <- O|cbn; split; discriminate]|]. split.
      - apply (tv_upd s _ t _ i h TOff W O); [reflexivity|intros h' v Hn; cbn; destruct (Nat.eqb_spec h h'); congruence|cbn; now rewrite Nat.eqb_refl|exact V].
      - apply timely_snoc; [exact T|]. intros h' Eh. injection Eh as <-. destruct V as [V1 _]. specialize (V1 i h O). rewrite F in V1. cbn in V1. congruence. }
    revert E. unfold called. pose proof (good_execs (fst p) _ _ G1) as G2. destruct (execs _ (fst p)) as [s2 t2]. intros E. injection E as <- <- _. cbn [fst snd] in G2.
    now rewrite <- app_assoc in G2.
  - destruct (l_set (e_l s i)); [|injection E as <- <- <-; now apply K]. destruct (l_own (e_l s i)) as [h|] eqn:O; [|injection E as <- <- <-; now apply K].
    assert (G1 : good (set_l s i (mkL None true (Some h))) t).
    { destruct G as (W & V & T). split; [apply wf_set_l; [exact W|now rewrite <- O|cbn; discriminate]|]. split; [|exact T]. rewrite <- (app_nil_r t). apply (tv_same s); [reflexivity|constructor|exact V]. }
    destruct (Z.eqb _ _); [(eapply good_called; [exact E|exact I|now apply timeless_other|assumption])|].
    destruct (Z.eqb _ _); [|(eapply good_called; [exact E|exact I|now apply timeless_other|assumption])].
    destruct (l_fd (e_l s i)); (eapply good_called; [exact E|exact I|now apply timeless_other|assumption]).
  - destruct (a_own (e_a s i)) as [h|]; [|injection E as <- <- <-; now apply K]. (eapply good_called; [exact E|exact I|now apply timeless_other|assumption]).
  - (eapply good_called; [exact E|exact I|now apply timeless_other|assumption]).
Qed.
Lemma good_batch b : forall s t, good s t -> good (fst (batch s b)) (t ++ snd (batch s b)).
Proof.
  induction b as [|[e p] r IH]; intros s t G; [cbn; now rewrite app_nil_r|]. cbn [batch].
  assert (G0 : good s (t ++ [AEntry e])) by (apply good_quiet; [exact G|timeless|repeat constructor]).
  destruct (dispatch s e p) as [[s1 t1] x] eqn:E. apply (good_dispatch s _ e p s1 t1 x E) in G0. destruct x; cbn [fst snd].
  - change (AEntry e :: t1 ++ [AThrow (map fst r)]) with ([AEntry e] ++ t1 ++ [AThrow (map fst r)]). rewrite !app_assoc. apply good_quiet; [exact G0|timeless|repeat constructor].
  - specialize (IH s1 _ G0). destruct (batch s1 r) as [s2 t2]. cbn [fst snd] in *. change (AEntry e :: t1 ++ t2) with ([AEntry e] ++ t1 ++ t2). now rewrite !app_assoc.
Qed.
Lemma lives_good s t : lives s t -> good s t.
Proof. induction 1; [exact good_new|now apply good_execs|now apply good_batch]. Qed.

(** * Counting ids *)
Definition counts (s : loop) (t : list act) : Prop :=
  length (e_lf s) + count is_link_new t = pool_capacity + count is_link_del t /\
  length (e_af s) + count is_acc_new t = pool_capacity + count is_acc_del t /\
  length (e_tf s) + count is_timer_new t + count is_no_timer t = pool_capacity + count is_timer_del t.
Lemma count_app f a b : count f (a ++ b) = count f a + count f b.
Proof. unfold count. now rewrite filter_app, app_length. Qed.
Definition uncounted (a : act) : Prop :=
  is_link_new a = false /\ is_link_del a = false /\ is_acc_new a = false /\ is_acc_del a = false /\ is_timer_new a = false /\ is_timer_del a = false /\ is_no_timer a = false.
Lemma counts_quiet s s' t l : e_lf s' = e_lf s -> e_af s' = e_af s -> e_tf s' = e_tf s -> Forall uncounted l -> counts s t -> counts s' (t ++ l).
Proof.
  intros E1 E2 E3 H C. unfold counts in *. rewrite E1, E2, E3, !count_app.
  assert (K : forall f, (forall a, uncounted a -> f a = false) -> count f l = 0).
  { intros f Hf. unfold count. induction H as [|a l Ha _ IH]; [reflexivity|]. cbn [filter]. now rewrite (Hf a Ha). }
  rewrite !K by (intros a Ha; apply Ha). lia.
Qed.
Ltac unc := repeat (apply Forall_cons; [repeat split; reflexivity|]); apply Forall_nil.
Lemma counts_exec s o t : counts s t -> counts (fst (exec s o)) (t ++ snd (exec s o)).
Proof.
  intros C. assert (K : forall s' l, e_lf s' = e_lf s -> e_af s' = e_af s -> e_tf s' = e_tf s -> Forall uncounted l -> counts s' (t ++ l)) by (intros; now apply (counts_quiet s)).
  destruct o; cbn [exec].
  - destruct (e_tf s) as [|i r] eqn:F; [apply K; try assumption; try reflexivity; unc|]. unfold counts in *. rewrite F in C. destruct (_ && _); cbn [fst snd bump set_t free_t e_tf e_lf e_af]; rewrite !count_app; cbn [length] in C;
    unfold count at 2 4 6 8 10 12 14; cbn [filter is_link_new is_link_del is_acc_new is_acc_del is_timer_new is_timer_del is_no_timer length]; lia.
  - destruct (find_t s h); apply K; try reflexivity; unc.
  - destruct (find_t s h); apply K; try reflexivity; unc.
  - destruct (find_t s h) as [i|]; [|apply K; try reflexivity; unc]. unfold counts in *. cbn [fst snd bump set_t free_t e_tf e_lf e_af]; rewrite !count_app, app_length;
    unfold count at 2 4 6 8 10 12 14; cbn [filter is_link_new is_link_del is_acc_new is_acc_del is_timer_new is_timer_del is_no_timer length]; lia.
  - destruct (find_t s h) as [i|]; [|apply K; try reflexivity; unc]. destruct (t_fd (e_t s i)) as [[]|]; apply K; try reflexivity; unc.
  - destruct (e_lf s) as [|i r] eqn:F; [apply K; try assumption; try reflexivity; unc|]. unfold counts in *. rewrite F in C. cbn [fst snd bump set_l free_l e_tf e_lf e_af]; rewrite !count_app; cbn [length] in C;
    unfold count at 2 4 6 8 10 12 14; cbn [filter is_link_new is_link_del is_acc_new is_acc_del is_timer_new is_timer_del is_no_timer length]; lia.
  - destruct (find_l s h); apply K; try reflexivity; unc.
  - destruct (find_l s h) as [i|]; [|apply K; try reflexivity; unc]. destruct (l_fd (e_l s i)), ok; apply K; try reflexivity; unc.
  - destruct (find_l s h); apply K; try reflexivity; unc.
  - destruct (find_l s h) as [i|]; [|apply K; try reflexivity; unc]. unfold counts in *. cbn [fst snd bump set_l free_l e_tf e_lf e_af]; rewrite !count_app, app_length;
    unfold count at 2 4 6 8 10 12 14; cbn [filter is_link_new is_link_del is_acc_new is_acc_del is_timer_new is_timer_del is_no_timer length]; lia.
  - destruct (e_af s) as [|i r] eqn:F; [apply K; try assumption; try reflexivity; unc|]. unfold counts in *. rewrite F in C. cbn [fst snd bump set_a free_a e_tf e_lf e_af]; rewrite !count_app; cbn [length] in C;
    unfold count at 2 4 6 8 10 12 14; cbn [filter is_link_new is_link_del is_acc_new is_acc_del is_timer_new is_timer_del is_no_timer length]; lia.
  - destruct (find_a s h) as [i|]; [|apply K; try reflexivity; unc]. destruct (_ && _); apply K; try reflexivity; unc.
  - destruct (find_a s h) as [i|]; [|apply K; try reflexivity; unc]. destruct (a_fd (e_a s i)); [|apply K; try reflexivity; unc]. unfold counts in *. cbn [fst snd bump set_a free_a e_tf e_lf e_af]; rewrite !count_app, app_length;
    unfold count at 2 4 6 8 10 12 14; cbn [filter is_link_new is_link_del is_acc_new is_acc_del is_timer_new is_timer_del is_no_timer length]; lia.
  - destruct (find_a s a) as [k|]; [|apply K; try reflexivity; unc]. destruct (find_l s h) as [i|]; [|apply K; try reflexivity; unc]. destruct (l_fd (e_l s i)), (a_fd (e_a s k) && ok); apply K; try reflexivity; unc.
Qed.
Lemma counts_execs os : forall s t, counts s t -> counts (fst (execs s os)) (t ++ snd (execs s os)).
Proof.
  induction os as [|o r IH]; intros s t G; [cbn; now rewrite app_nil_r|]. cbn [execs]. pose proof (counts_exec s o t G) as G1. destruct (exec s o) as [s1 t1].
  specialize (IH s1 _ G1). destruct (execs s1 r) as [s2 t2]. cbn [fst snd] in *. now rewrite app_assoc.
Qed.

(** ** What an event's handling is made of: a change of its object, the handler's call, what the handler does. *)
Record touched (s : loop) (e : entry) (s0 : loop) (a : act) : Prop := mkTd {
  td_l : forall j, lown s0 j = lown s j;
  td_t : forall j, town s0 j = town s j;
  td_o : forall j, en_obj e <> RL j -> e_l s0 j = e_l s j;
  td_lf : e_lf s0 = e_lf s; td_af : e_af s0 = e_af s; td_tf : e_tf s0 = e_tf s; td_n : e_next s0 = e_next s; td_w : wf s0;
  td_a : match a with
         | ATimerCall h => exists i, en_obj e = RT i /\ town s i = Some h /\ t_fd (e_t s i) = Some TExpired
         | ALinkCall h ev c => exists i, en_obj e = RL i /\ lown s i = Some h /\ c = l_fd (e_l s i)
         | AAccCall h => exists i, en_obj e = RA i /\ aown s i = Some h
         | AMsgCall => en_obj e = RMsg
         | _ => False
         end }.
Inductive dispatched (s : loop) (e : entry) (p : script) : loop -> list act -> bool -> Prop :=
| dp_none : (match en_obj e with
             | RT i => t_fd (e_t s i) <> None /\ t_fd (e_t s i) <> Some TExpired
             | RL i => l_set (e_l s i) = false \/ lown s i = None
             | RA i => aown s i = None
             | RMsg => False
             end) -> dispatched s e p s [] false
| dp_stale i : en_obj e = RT i -> t_fd (e_t s i) = None -> dispatched s e p s [] true
| dp_call s0 a : touched s e s0 a -> dispatched s e p (fst (execs s0 (fst p))) (a :: snd (execs s0 (fst p))) (snd p).
Lemma dispatch_inv s e p s1 t1 x : wf s -> dispatch s e p = (s1, t1, x) -> dispatched s e p s1 t1 x.
Proof.
  intros W. unfold dispatch.
  assert (C : forall s0 a, called s0 a p = (fst (execs s0 (fst p)), a :: snd (execs s0 (fst p)), snd p)).
  { intros s0 a. unfold called. now destruct (execs s0 (fst p)). }
  destruct (en_obj e) as [i|i|i|] eqn:Ob.
  - destruct (t_fd (e_t s i)) as [[]|] eqn:F; try (intros E; injection E as <- <- <-; apply dp_none; rewrite Ob, F; split; discriminate).
    + destruct (t_own (e_t s i)) as [h|] eqn:O.
      2:{ exfalso. pose proof (proj1 (w_tc s W i) O) as Q. congruence. }
      rewrite C. intros E. injection E as <- <- <-. apply dp_call. constructor; try reflexivity.
      * intros j. rewrite town_set. cbn [t_own]. rewrite <- O. apply (fset_same (town s)).
      * apply wf_set_t; [exact W|now rewrite <- O|cbn; split; discriminate].
      * eauto.
    + intros E. injection E as <- <- <-. eapply dp_stale; eauto.
  - destruct (l_set (e_l s i)) eqn:St; [|intros E; injection E as <- <- <-; apply dp_none; rewrite Ob; now left].
    destruct (l_own (e_l s i)) as [h|] eqn:O; [|intros E; injection E as <- <- <-; apply dp_none; rewrite Ob; now right].
    assert (D1 : forall j, lown (set_l s i (mkL None true (Some h))) j = lown s j). { intros j. rewrite lown_set. cbn [l_own]. rewrite <- O. apply (fset_same (lown s)). }
    assert (D2 : wf (set_l s i (mkL None true (Some h)))) by (apply wf_set_l; [exact W|now rewrite <- O|cbn; discriminate]).
    assert (D3 : forall j, RL i <> RL j -> e_l (set_l s i (mkL None true (Some h))) j = e_l s j). { intros j Hj. cbn [set_l e_l]. apply fset_ne. congruence. }
    destruct (Z.eqb _ _); [|destruct (Z.eqb _ _); [destruct (l_fd (e_l s i)) eqn:F|]]; rewrite C; intros E; injection E as <- <- <-; apply dp_call; constructor; auto; try (intros j Hj; apply D3; congruence); eauto.
  - destruct (a_own (e_a s i)) as [h|] eqn:O; [|intros E; injection E as <- <- <-; apply dp_none; now rewrite Ob]. rewrite C. intros E. injection E as <- <- <-. apply dp_call; constructor; auto. eauto.
  - rewrite C. intros E. injection E as <- <- <-. apply dp_call; constructor; auto.
Qed.

(** The state in which the loop comes to an event. *)
Inductive after : loop -> list (entry * script) -> loop -> list act -> Prop :=
| af_nil s : after s [] s []
| af_cons s e p s1 t1 r s2 t2 : dispatch s e p = (s1, t1, false) -> after s1 r s2 t2 -> after s ((e, p) :: r) s2 (AEntry e :: t1 ++ t2).
Definition noentry (a : act) : Prop := match a with AEntry _ | AThrow _ => False | _ => True end.
Lemma exec_noentry s o : Forall noentry (snd (exec s o)).
Proof. destruct o; cbn [exec]; repeat match goal with |- context [match ?x with _ => _ end] => destruct x end; cbn [snd]; repeat constructor. Qed.
Lemma execs_noentry os : forall s, Forall noentry (snd (execs s os)).
Proof.
  induction os as [|o r IH]; intros s; [constructor|]. cbn [execs]. pose proof (exec_noentry s o) as N. destruct (exec s o) as [s1 t1]. specialize (IH s1). destruct (execs s1 r) as [s2 t2].
  apply Forall_app. now split.
Qed.
Lemma dispatch_noentry s e p s1 t1 x : wf s -> dispatch s e p = (s1, t1, x) -> Forall noentry t1.
Proof.
  intros W E. apply dispatch_inv in E; [|exact W]. destruct E as [H|i H1 H2|s0 a H]; try constructor; [|apply execs_noentry]. destruct H. destruct a; try contradiction; exact I.
Qed.
Lemma dispatch_wf s e p s1 t1 x : wf s -> dispatch s e p = (s1, t1, x) -> wf s1.
Proof.
  intros W E. apply dispatch_inv in E; [|exact W]. destruct E as [H|i H1 H2|s0 a H]; try exact W. apply wf_execs. apply H.
Qed.
Lemma split_entry t1 : forall rest pre e post, Forall noentry t1 -> t1 ++ rest = pre ++ AEntry e :: post -> exists q, pre = t1 ++ q /\ rest = q ++ AEntry e :: post.
Proof.
  induction t1 as [|a t IH]; intros rest pre e post N E; [exists pre; auto|]. inversion N; subst. destruct pre as [|b pre]; cbn [app] in E; [injection E as -> _; contradiction|].
  injection E as -> E. destruct (IH rest pre e post) as (q & -> & ->); auto. now exists q.
Qed.
Lemma batch_at b : forall s pre e post, wf s -> snd (batch s b) = pre ++ AEntry e :: post ->
  exists b1 p b2 s' s1 t1 x, b = b1 ++ (e, p) :: b2 /\ after s b1 s' pre /\ dispatch s' e p = (s1, t1, x) /\
    post = t1 ++ (if x then [AThrow (map fst b2)] else snd (batch s1 b2)).
Proof.
  induction b as [|[e0 p0] r IH]; intros s pre e post W E; [destruct pre; discriminate|]. cbn [batch] in E. destruct (dispatch s e0 p0) as [[s1 t1] x] eqn:D.
  pose proof (dispatch_wf s e0 p0 s1 t1 x W D) as W1. pose proof (dispatch_noentry s e0 p0 s1 t1 x W D) as N1.
  assert (E' : AEntry e0 :: t1 ++ (if x then [AThrow (map fst r)] else snd (batch s1 r)) = pre ++ AEntry e :: post).
  { destruct x; [exact E|]. destruct (batch s1 r). exact E. }
  clear E. destruct pre as [|a pre]; cbn [app] in E'; injection E' as Ea E'.
  - subst. exists [], p0, r, s, s1, t1, x. repeat split; auto. constructor.
  - subst a. apply split_entry in E' as (q & -> & E'); [|exact N1]. destruct x; [destruct q as [|? [|]]; discriminate|].
    apply IH in E' as (b1 & p & b2 & s' & s1' & t1' & x' & -> & A & D' & ->); [|exact W1].
    exists ((e0, p0) :: b1), p, b2, s', s1', t1', x'. repeat split; auto. econstructor; eauto.
Qed.

(** What is kept by every call and by every dispatch is kept until the loop comes to an event. *)
Lemma after_inv (I : loop -> list act -> Prop) (ok : entry -> Prop) :
  (forall s u, I s u -> wf s) ->
  (forall s u o, I s u -> I (fst (exec s o)) (u ++ snd (exec s o))) ->
  (forall s u e, I s u -> I s (u ++ [AEntry e])) ->
  (forall s u e s0 a, ok e -> touched s e s0 a -> I s u -> I s0 (u ++ [a])) ->
  forall s b s' pre u, after s b s' pre -> Forall (fun x => ok (fst x)) b -> I s u -> I s' (u ++ pre).
Proof.
  intros HW HX HE HT. assert (HS : forall os s u, I s u -> I (fst (execs s os)) (u ++ snd (execs s os))).
  { induction os as [|o r IH]; intros s u H; [cbn; now rewrite app_nil_r|]. cbn [execs]. pose proof (HX s u o H) as H1. destruct (exec s o) as [s1 t1].
    specialize (IH s1 _ H1). destruct (execs s1 r) as [s2 t2]. cbn [fst snd] in *. now rewrite app_assoc. }
  intros s b s' pre u A. revert u. induction A as [s|s e p s1 t1 r s2 t2 D A IH]; intros u O H; [now rewrite app_nil_r|].
  inversion O as [|? ? O1 O2]; subst. change (AEntry e :: t1 ++ t2) with ([AEntry e] ++ t1 ++ t2). rewrite !app_assoc. apply IH; [exact O2|].
  apply (HE s u e) in H. apply dispatch_inv in D; [|eapply HW; eauto]. inversion D; subst; [now rewrite app_nil_r|].
  change (a :: snd (execs s0 (fst p))) with ([a] ++ snd (execs s0 (fst p))). rewrite app_assoc. apply HS. eapply HT; eauto.
Qed.

(** * Who owns an object later in a batch *)
(** An owner found at the start keeps the object or is gone for good. *)
Definition tkept (i h : nat) (s : loop) (u : list act) : Prop :=
  wf s /\ h < e_next s /\ (town s i = Some h \/ ((forall j, town s j <> Some h) /\ In (ATimerDel h) u)).
Lemma next_le s o : e_next s <= e_next (fst (exec s o)).
Proof. destruct o; cbn [exec]; repeat match goal with |- context [match ?x with _ => _ end] => destruct x end; cbn; lia. Qed.

Lemma town_exec s o i h : wf s -> h < e_next s ->
  (town s i = Some h -> town (fst (exec s o)) i = Some h \/ ((forall j, town (fst (exec s o)) j <> Some h) /\ In (ATimerDel h) (snd (exec s o)))) /\
  ((forall j, town s j <> Some h) -> forall j, town (fst (exec s o)) j <> Some h).
Proof.
  intros W Hh. assert (K : forall s', (forall j, town s' j = town s j) -> (town s i = Some h -> town s' i = Some h \/ ((forall j, town s' j <> Some h) /\ In (ATimerDel h) (snd (exec s o)))) /\
    ((forall j, town s j <> Some h) -> forall j, town s' j <> Some h)).
  { intros s' E. split; [left; now rewrite E|]. intros N j. now rewrite E. }
  assert (KF : forall j x, t_own x = town s j -> forall k, town (set_t s j x) k = town s k). { intros j x Ex k. rewrite town_set, Ex. apply fset_same. }
  destruct o; try (apply K; cbn [exec]; repeat match goal with |- context [match ?x with _ => _ end] => destruct x end; reflexivity).
  - cbn [exec] in *. destruct (e_tf s) as [|k r] eqn:F; [apply K; reflexivity|]. destruct (_ && _); [|apply K; reflexivity]. cbn [fst snd].
    assert (E : forall j, town (bump (set_t (free_t s r) k (mkT (Some TOff) (Some (e_next s))))) j = fset (town s) k (Some (e_next s)) j). { intros j. unfold town, fset. cbn. unfold fset. now destruct (j =? k). }
    assert (Of : town s k = None). { destruct (w_t s W) as (_ & B & _). rewrite F in B. apply B. now left. }
    split.
    + intros H. left. rewrite E, fset_ne; [exact H|congruence].
    + intros N j. rewrite E. unfold fset. destruct (j =? k); [|apply N]. intros Q. injection Q as Q. lia.
  - apply K. cbn [exec]. destruct (find_t s h0) as [j|]; [|reflexivity]. now apply KF.
  - apply K. cbn [exec]. destruct (find_t s h0) as [j|]; [|reflexivity]. now apply KF.
  - cbn [exec] in *. pose proof (find_t_spec s h0) as P. destruct (find_t s h0) as [k|]; [|apply K; reflexivity]. destruct P as [_ P]. cbn [fst snd].
    assert (E : forall j, town (free_t (set_t s k (mkT None None)) (e_tf s ++ [k])) j = fset (town s) k None j). { intros j. unfold town, fset. cbn. unfold fset. now destruct (j =? k). }
    split.
    + intros H. destruct (Nat.eq_dec i k) as [->|Hn]; [|left; rewrite E, fset_ne; auto]. right. unfold town in H. rewrite P in H. injection H as ->. split; [|now left].
      intros j. rewrite E. unfold fset. destruct (Nat.eqb_spec j k); [discriminate|]. intros Q. apply n. eapply (w_t s W); eauto.
    + intros N j. rewrite E. unfold fset. destruct (j =? k); [discriminate|apply N].
  - apply K. cbn [exec]. destruct (find_t s h0) as [j|]; [|reflexivity]. destruct (t_fd (e_t s j)) as [[]|]; try reflexivity. now apply KF.
Qed.
Lemma tkept_after s b s' pre i h : wf s -> town s i = Some h -> after s b s' pre -> tkept i h s' pre.
Proof.
  intros W O A. change pre with ([] ++ pre). eapply (after_inv (tkept i h) (fun _ => True)); [| | | |exact A| |].
  - intros x u H. apply H.
  - intros x u o (Wx & Hh & H). split; [now apply wf_exec|]. split; [pose proof (next_le x o); lia|]. destruct (town_exec x o i h Wx Hh) as [P Q].
    destruct H as [H|[H1 H2]]; [destruct (P H) as [R|[R1 R2]]; [now left|right; split; [exact R1|apply in_or_app; now right]]|right; split; [now apply Q|apply in_or_app; now left]].
  - intros x u e (Wx & Hh & H). split; [exact Wx|]. split; [exact Hh|]. destruct H as [H|[H1 H2]]; [now left|right; split; [exact H1|apply in_or_app; now left]].
  - intros x u e s0 a _ T (Wx & Hh & H). split; [apply T|]. split; [rewrite (td_n _ _ _ _ T); exact Hh|]. rewrite (td_t _ _ _ _ T).
    destruct H as [H|[H1 H2]]; [now left|right; split; [intros j; rewrite (td_t _ _ _ _ T); apply H1|apply in_or_app; now left]].
  - now apply Forall_forall.
  - split; [exact W|]. split; [|now left]. eapply (w_t s W); eauto.
Qed.

(** ** Links *)
Inductive lchange (s s' : loop) (u : list act) : Prop :=
| lc_same : e_lf s' = e_lf s -> (forall j, lown s' j = lown s j) -> count is_link_new u = 0 ->
    (forall j h, lown s j = Some h -> l_fd (e_l s' j) = l_fd (e_l s j) \/ In (ALinkClose h) u \/ l_fd (e_l s j) = None) -> lchange s s' u
| lc_new j x : e_lf s = j :: e_lf s' -> u = [ALinkNew (e_next s)] -> (forall k, e_l s' k = fset (e_l s) j x k) -> l_own x = Some (e_next s) -> lchange s s' u
| lc_del j h : lown s j = Some h -> e_lf s' = e_lf s ++ [j] -> u = [ALinkDel h] -> (forall k, e_l s' k = fset (e_l s) j (mkL None false None) k) -> lchange s s' u.
Lemma exec_link s o : wf s -> lchange s (fst (exec s o)) (snd (exec s o)).
Proof.
  intros W. assert (K : forall s' u, e_lf s' = e_lf s -> e_l s' = e_l s -> count is_link_new u = 0 -> lchange s s' u).
  { intros s' u E1 E2 E3. apply lc_same; auto; [intros j; unfold lown; now rewrite E2|]. intros j h H. left. now rewrite E2. }
  assert (KF : forall j x, l_own x = lown s j -> forall k, lown (set_l s j x) k = lown s k). { intros j x Ex k. rewrite lown_set, Ex. apply fset_same. }
  destruct o; try (apply K; cbn [exec]; repeat match goal with |- context [match ?x with _ => _ end] => destruct x end; reflexivity); cbn [exec].
  - destruct (e_lf s) as [|j r] eqn:F; [apply K; auto|]. eapply (lc_new _ _ _ j); auto; reflexivity.
  - pose proof (find_l_spec s h) as P. destruct (find_l s h) as [j|]; [|apply K; auto]. destruct P as [_ P]. apply lc_same; auto; [now apply KF|].
    intros k x H. left. cbn [fst set_l e_l]. unfold fset. now destruct (Nat.eqb_spec k j) as [->|].
  - pose proof (find_l_spec s h) as P. destruct (find_l s h) as [j|]; [|apply K; auto]. destruct P as [_ P]. destruct (l_fd (e_l s j)) eqn:F; [apply K; auto|]. destruct ok; [|apply K; auto].
    apply lc_same; auto; [intros k; now apply KF|]. intros k x H. cbn [fst bump set_l e_l]. unfold fset. destruct (Nat.eqb_spec k j) as [->|]; auto.
  - pose proof (find_l_spec s h) as P. destruct (find_l s h) as [j|]; [|apply K; auto]. destruct P as [_ P]. apply lc_same; auto; [now apply KF|].
    intros k x H. cbn [fst snd set_l e_l]. unfold fset. destruct (Nat.eqb_spec k j) as [->|]; auto. right. left. unfold lown in H. rewrite P in H. injection H as ->. now left.
  - pose proof (find_l_spec s h) as P. destruct (find_l s h) as [j|]; [|apply K; auto]. destruct P as [_ P]. eapply (lc_del _ _ _ j); eauto; reflexivity.
  - destruct (find_a s a) as [k|]; [|apply K; auto]. pose proof (find_l_spec s h) as P. destruct (find_l s h) as [j|]; [|apply K; auto]. destruct P as [_ P].
    destruct (l_fd (e_l s j)) eqn:F; [apply K; auto|]. destruct (_ && _); [|apply K; auto].
    apply lc_same; auto; [intros m; now apply KF|]. intros m x H. cbn [fst bump set_l e_l]. unfold fset. destruct (Nat.eqb_spec m j) as [->|]; auto.
Qed.

(** From the moment events were reported, with [F] the free ids then: link [i], owned by [h] with connection [c]. *)
Definition lkept (F : list nat) (i h c : nat) (s : loop) (u : list act) : Prop :=
  wf s /\ h < e_next s /\
  ((lown s i = Some h /\ (l_fd (e_l s i) = Some c \/ In (ALinkClose h) u)) \/
   (lown s i <> Some h /\ In (ALinkDel h) u /\ forall h', lown s i = Some h' -> In (ALinkNew h') u)) /\
  (count is_link_new u <= length F -> (lown s i = Some h \/ lown s i = None) /\ exists d, e_lf s = skipn (count is_link_new u) F ++ d).
Lemma skipn_cons {A} (l : list A) : forall n, n < length l -> exists x, skipn n l = x :: skipn (S n) l /\ In x l.
Proof.
  induction l as [|a l IH]; intros n H; [cbn in H; lia|]. destruct n; [exists a; split; [reflexivity|now left]|]. cbn [length] in H. destruct (IH n) as (x & E & I); [lia|].
  exists x. split; [exact E|now right].
Qed.
Lemma lkept_exec F i h c s u o : ~ In i F -> lkept F i h c s u -> lkept F i h c (fst (exec s o)) (u ++ snd (exec s o)).
Proof.
  intros NF (W & Hh & H & Hf). split; [now apply wf_exec|]. split; [pose proof (next_le s o); lia|].
  pose proof (exec_link s o W) as L. destruct (exec s o) as [s' v]. cbn [fst snd] in *. rewrite count_app. destruct L as [E1 E2 E3 E4|j x E1 -> E3 E4|j g E1 E2 -> E4].
  - rewrite E2, E3, Nat.add_0_r, E1. split; [|exact Hf]. destruct H as [[H1 H2]|(H1 & H2 & H3)].
    + left. split; [exact H1|]. destruct H2 as [H2|H2]; [|right; apply in_or_app; now left]. destruct (E4 i h H1) as [Q|[Q|Q]]; [left; congruence|right; apply in_or_app; now right|congruence].
    + right. split; [exact H1|]. split; [apply in_or_app; now left|]. intros h' Q. apply in_or_app. left. auto.
  - assert (Of : lown s j = None). { destruct (w_l s W) as (_ & B & _). rewrite E1 in B. apply B. now left. }
    cbn [count filter is_link_new length]. change (count is_link_new [ALinkNew (e_next s)]) with 1.
    split.
    + destruct H as [[H1 H2]|(H1 & H2 & H3)].
      * left. assert (i <> j) by congruence. unfold lown. rewrite E3, fset_ne by assumption. split; [exact H1|]. destruct H2 as [H2|H2]; [now left|right; apply in_or_app; now left].
      * right. unfold lown. rewrite E3. unfold fset. destruct (Nat.eqb_spec i j) as [->|Hn].
        -- rewrite E4. split; [intros Q; injection Q as Q; lia|]. split; [apply in_or_app; now left|]. intros h' Q. injection Q as <-. apply in_or_app. right. now left.
        -- split; [exact H1|]. split; [apply in_or_app; now left|]. intros h' Q. apply in_or_app. left. now apply H3.
    + intros Hc. destruct Hf as [Ho (d & Ed)]; [lia|]. destruct (skipn_cons F (count is_link_new u)) as (y & Ey & Iy); [lia|]. rewrite Ey in Ed. rewrite E1 in Ed. cbn [app] in Ed. injection Ed as <- Ed.
      assert (i <> j) by (intros ->; contradiction). unfold lown. rewrite E3, fset_ne by assumption. split; [exact Ho|]. exists d. rewrite Nat.add_1_r. exact Ed.
  - change (count is_link_new [ALinkDel g]) with 0. rewrite Nat.add_0_r. unfold lown. rewrite E4. unfold fset. split.
    + destruct (Nat.eqb_spec i j) as [->|Hn]; cbn [l_own l_fd].
      * right. split; [discriminate|]. split; [|discriminate]. destruct H as [[H1 _]|(_ & H2 & _)]; apply in_or_app; [right; left; congruence|now left].
      * destruct H as [[H1 H2]|(H1 & H2 & H3)].
        -- left. split; [exact H1|]. destruct H2; [now left|right; apply in_or_app; now left].
        -- right. split; [exact H1|]. split; [apply in_or_app; now left|]. intros h' Q. apply in_or_app. left. auto.
    + intros Hc. destruct (Hf Hc) as [Ho (d & Ed)]. split; [destruct (Nat.eqb_spec i j) as [->|Hn]; [now right|exact Ho]|]. exists (d ++ [j]). rewrite E2, Ed. now rewrite app_assoc.
Qed.
Lemma lkept_quiet F i h c s s0 u a : wf s0 -> e_next s0 = e_next s -> lown s0 i = lown s i -> l_fd (e_l s0 i) = l_fd (e_l s i) -> e_lf s0 = e_lf s ->
  is_link_new a = false -> lkept F i h c s u -> lkept F i h c s0 (u ++ [a]).
Proof.
  intros W En Eo Ef El Na (_ & Hh & H & Hf). split; [exact W|]. rewrite En, Eo, Ef, El. split; [exact Hh|]. rewrite count_app. unfold count at 2 4. cbn [filter]. rewrite Na. cbn [length]. rewrite Nat.add_0_r.
  split; [|exact Hf]. destruct H as [[H1 H2]|(H1 & H2 & H3)].
  - left. split; [exact H1|]. destruct H2; [now left|right; apply in_or_app; now left].
  - right. split; [exact H1|]. split; [apply in_or_app; now left|]. intros h' Q. apply in_or_app. left. auto.
Qed.
Lemma lkept_after s b s' pre i h c : wf s -> lown s i = Some h -> l_fd (e_l s i) = Some c -> after s b s' pre ->
  Forall (fun x => en_obj (fst x) <> RL i) b -> lkept (e_lf s) i h c s' pre.
Proof.
  intros W O C A N. assert (NF : ~ In i (e_lf s)). { intros H. apply (w_l s W) in H. destruct H as [_ H]. congruence. }
  change pre with ([] ++ pre). eapply (after_inv (lkept (e_lf s) i h c) (fun e => en_obj e <> RL i)); [| | | |exact A|exact N|].
  - intros x u H. apply H.
  - intros x u o H. now apply lkept_exec.
  - intros x u e H. apply (lkept_quiet _ _ _ _ x); auto. apply H.
  - intros x u e s0 a Ne T H. apply (lkept_quiet _ _ _ _ x); auto; try apply T.
    + rewrite (td_o _ _ _ _ T i Ne). reflexivity.
    + pose proof (td_a _ _ _ _ T) as Q. destruct a; try contradiction; reflexivity.
  - split; [exact W|]. split; [eapply (w_l s W); eauto|]. split; [left; auto|]. intros _. split; [now left|]. exists []. now rewrite app_nil_r.
Qed.

(** * Batches *)
Lemma entries_app a b : entries (a ++ b) = entries a ++ entries b.
Proof. apply flat_map_app. Qed.
Lemma lost_app a b : lost (a ++ b) = lost a ++ lost b.
Proof. apply flat_map_app. Qed.
Lemma noentry_nil t : Forall noentry t -> entries t = [] /\ lost t = [].
Proof. induction 1 as [|a t Ha _ [IH1 IH2]]; [auto|]. destruct a; try contradiction; auto. Qed.
Lemma batch_entries b : forall s, wf s -> entries (snd (batch s b)) ++ lost (snd (batch s b)) = map fst b.
Proof.
  induction b as [|[e p] r IH]; intros s W; [reflexivity|]. cbn [batch]. destruct (dispatch s e p) as [[s1 t1] x] eqn:D.
  pose proof (dispatch_wf s e p s1 t1 x W D) as W1. pose proof (noentry_nil _ (dispatch_noentry s e p s1 t1 x W D)) as [N1 N2]. specialize (IH s1 W1).
  destruct x; cbn [snd].
  - change (AEntry e :: t1 ++ [AThrow (map fst r)]) with ([AEntry e] ++ t1 ++ [AThrow (map fst r)]). rewrite !entries_app, !lost_app, N1, N2. cbn. now rewrite app_nil_r.
  - destruct (batch s1 r) as [s2 t2]. cbn [snd] in *. change (AEntry e :: t1 ++ t2) with ([AEntry e] ++ t1 ++ t2). rewrite !entries_app, !lost_app, N1, N2. cbn. now rewrite IH.
Qed.
Lemma batch_throw_at b : forall s l, wf s -> In (AThrow l) (snd (batch s b)) ->
  exists b1 e p b2 s' pre s1 t1, b = b1 ++ (e, p) :: b2 /\ l = map fst b2 /\ after s b1 s' pre /\ dispatch s' e p = (s1, t1, true) /\ snd (batch s b) = pre ++ AEntry e :: t1 ++ [AThrow l].
Proof.
  induction b as [|[e p] r IH]; intros s l W H; [destruct H|]. cbn [batch] in *. destruct (dispatch s e p) as [[s1 t1] x] eqn:D.
  pose proof (dispatch_wf s e p s1 t1 x W D) as W1. pose proof (dispatch_noentry s e p s1 t1 x W D) as N1. rewrite Forall_forall in N1. destruct x.
  - cbn [snd] in *. exists [], e, p, r, s, [], s1, t1. destruct H as [H|H]; [discriminate|]. apply in_app_or in H as [H|[H|[]]]; [destruct (N1 _ H)|]. injection H as <-. repeat split; auto. constructor.
  - destruct (batch s1 r) as [s2 t2] eqn:B. cbn [snd] in *. destruct H as [H|H]; [discriminate|]. apply in_app_or in H as [H|H]; [destruct (N1 _ H)|].
    assert (H' : In (AThrow l) (snd (batch s1 r))) by (rewrite B; exact H).
    apply IH in H' as (b1 & e' & p' & b2 & s' & pre & s1' & t1' & -> & -> & A & D' & E); [|exact W1]. rewrite B in E. cbn [snd] in E. subst t2.
    exists ((e, p) :: b1), e', p', b2, s', (AEntry e :: t1 ++ pre), s1', t1'. repeat split; auto; [econstructor; eauto|]. cbn [app]. now rewrite <- !app_assoc.
Qed.
Lemma count_quiet_batch b : forall s t, wf s -> counts s t -> counts (fst (batch s b)) (t ++ snd (batch s b)).
Proof.
  induction b as [|[e p] r IH]; intros s t W G; [cbn; now rewrite app_nil_r|]. cbn [batch].
  assert (G0 : counts s (t ++ [AEntry e])) by (apply (counts_quiet s); auto; unc).
  destruct (dispatch s e p) as [[s1 t1] x] eqn:D. pose proof (dispatch_wf s e p s1 t1 x W D) as W1.
  assert (G1 : counts s1 ((t ++ [AEntry e]) ++ t1)).
  { apply dispatch_inv in D; [|exact W]. inversion D; subst; try (now rewrite app_nil_r). change (a :: snd (execs s0 (fst p))) with ([a] ++ snd (execs s0 (fst p))). rewrite app_assoc. apply counts_execs.
    match goal with H : touched _ _ _ _ |- _ => destruct H as [_ _ _ Q1 Q2 Q3 _ _ Qa] end. apply (counts_quiet s); auto. destruct a; try contradiction; unc. }
  rewrite <- app_assoc in G1. destruct x; cbn [fst snd].
  - change (AEntry e :: t1 ++ [AThrow (map fst r)]) with ([AEntry e] ++ t1 ++ [AThrow (map fst r)]). rewrite (app_assoc [AEntry e]), app_assoc. apply (counts_quiet s1); auto. unc.
  - specialize (IH s1 _ W1 G1). destruct (batch s1 r) as [s2 t2]. cbn [fst snd] in *. change (AEntry e :: t1 ++ t2) with ([AEntry e] ++ t1 ++ t2). rewrite <- !app_assoc in IH. exact IH.
Qed.
Lemma lives_counts s t : lives s t -> counts s t.
Proof.
  induction 1 as [|s t os L IH|s t b L IH R]; [repeat split|now apply counts_execs|]. apply count_quiet_batch; [apply (lives_good s t L)|exact IH].
Qed.
