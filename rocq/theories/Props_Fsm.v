(** C156: state machines. *)
From Verif Require Import Base FsmModel FsmSpec.
Local Open Scope Z_scope.

Lemma last_entered_app s l1 l2 : last_entered s (l1 ++ l2) = last_entered (last_entered s l1) l2.
Proof. revert s. induction l1 as [|e l1 IH]; intros s; [reflexivity|]. destruct e; cbn; apply IH. Qed.
Lemma moves_app l1 l2 : moves (l1 ++ l2) = moves l1 ++ moves l2.
Proof. induction l1 as [|e l1 IH]; [reflexivity|]. destruct e; cbn; now rewrite ?IH. Qed.
Lemma walk_app s l t : walk s l t -> forall l2 u, walk t l2 u -> walk s (l ++ l2) u.
Proof. induction 1; intros l2 v H2; cbn; [assumption|constructor; auto]. Qed.

(** A steady action only adds to the record, nothing that counts as a move. *)
Lemma steady_run A : forall n a m m' b, steady a -> f_run n A a m = Some (m', b) ->
  f_cur m' = f_cur m /\ exists l, f_log m' = f_log m ++ l /\ moves l = [] /\ forall s, last_entered s l = s.
Proof.
  induction n as [|n IH]; intros a m m' b Q H; [discriminate|]. inversion Q as [| |x k Hk]; subst; cbn in H.
  - injection H as <- <-. split; [reflexivity|]. exists []. now rewrite app_nil_r.
  - injection H as <- <-. split; [reflexivity|]. exists []. now rewrite app_nil_r.
  - apply IH in H as (E & l & L & M & N); [|apply Hk]. cbn in E, L. split; [assumption|]. exists (EDo x :: l). rewrite L, <- app_assoc. cbn. auto.
Qed.
Lemma quiet_steady a : quiet a -> steady a.
Proof. induction 1; constructor; auto. Qed.
Lemma quiet_run A : forall n a m m' b, quiet a -> f_run n A a m = Some (m', b) -> b = false.
Proof.
  induction n as [|n IH]; intros a m m' b Q H; [discriminate|]. inversion Q as [|x k Hk]; subst; cbn in H.
  - now injection H as <- <-.
  - eapply IH; [|exact H]. apply Hk.
Qed.

(** C156.  Exit actions that do not change the state (none in the code base does: they stop timers, which throws only if the system refuses); entry actions and the owner do what they like,
    also change the state again, and anything may throw. *)
Theorem C156_current : forall A, (forall s l, steady (a_exit A s l)) ->
  forall n a m m' b, f_run n A a m = Some (m', b) ->
  exists l, f_log m' = f_log m ++ l /\ f_cur m' = last_entered (f_cur m) l.
Proof.
  intros A HA n. induction n as [|n IH]; intros a m m' b H; [discriminate|].
  destruct a as [| |x k|s k]; cbn in H.
  - injection H as <- <-. exists []. now rewrite app_nil_r.
  - injection H as <- <-. exists []. now rewrite app_nil_r.
  - apply IH in H as (l & L & C). cbn in L, C. exists (EDo x :: l). rewrite L, <- app_assoc. cbn. auto.
  - assert (T : forall m1 b1, f_transit (f_run n A) A s m = Some (m1, b1) -> exists l, f_log m1 = f_log m ++ l /\ f_cur m1 = last_entered (f_cur m) l).
    { intros m1 b1. unfold f_transit. destruct (s =? f_cur m).
      - intros [= <- <-]. exists [ERefused s]. cbn. auto.
      - destruct (f_run n A (a_exit A _ _) _) as [[m2 b2]|] eqn:E; [|discriminate].
        apply steady_run in E as (E1 & l1 & L1 & M1 & N1); [|apply HA]. cbn in E1, L1. destruct b2.
        + intros [= <- <-]. exists (EExit (f_cur m) :: l1). rewrite L1, <- app_assoc. cbn. split; [reflexivity|]. now rewrite N1.
        + intros K. apply IH in K as (l2 & L2 & C2). cbn in L2, C2. exists (EExit (f_cur m) :: l1 ++ EEnter s :: l2).
          rewrite L2, L1, <- !app_assoc. cbn. split; [reflexivity|].
          rewrite last_entered_app. cbn. exact C2. }
    destruct (f_transit (f_run n A) A s m) as [[m1 [|]]|] eqn:E; [|  |discriminate].
    + injection H as <- <-. eauto.
    + destruct (T _ _ eq_refl) as (l1 & L1 & C1). apply IH in H as (l2 & L2 & C2). exists (l1 ++ l2).
      rewrite L2, L1, app_assoc. split; [reflexivity|]. now rewrite last_entered_app, <- C1.
Qed.
Print Assumptions C156_current.

(** If exit actions moreover do not throw, the entries and exits are a walk from the state before to the state after: every state is
    left exactly once after it was entered, and the state left is the one the machine is in. *)
Theorem C156_walk : forall A, (forall s l, quiet (a_exit A s l)) ->
  forall n a m m' b, f_run n A a m = Some (m', b) ->
  exists l, f_log m' = f_log m ++ l /\ walk (f_cur m) (moves l) (f_cur m').
Proof.
  intros A HA n. induction n as [|n IH]; intros a m m' b H; [discriminate|].
  destruct a as [| |x k|s k]; cbn in H.
  - injection H as <- <-. exists []. rewrite app_nil_r. split; [reflexivity|constructor].
  - injection H as <- <-. exists []. rewrite app_nil_r. split; [reflexivity|constructor].
  - apply IH in H as (l & L & C). cbn in L, C. exists (EDo x :: l). rewrite L, <- app_assoc. cbn. auto.
  - assert (T : forall m1 b1, f_transit (f_run n A) A s m = Some (m1, b1) -> exists l, f_log m1 = f_log m ++ l /\ walk (f_cur m) (moves l) (f_cur m1)).
    { intros m1 b1. unfold f_transit. destruct (Z.eqb_spec s (f_cur m)) as [Es|Es].
      - intros [= <- <-]. exists [ERefused s]. cbn. split; [reflexivity|constructor].
      - destruct (f_run n A (a_exit A _ _) _) as [[m2 b2]|] eqn:E; [|discriminate].
        pose proof (quiet_run _ _ _ _ _ _ (HA _ _) E) as ->.
        apply steady_run in E as (E1 & l1 & L1 & M1 & N1); [|apply quiet_steady, HA]. cbn in E1, L1.
        intros K. apply IH in K as (l2 & L2 & C2). cbn in L2, C2. exists (EExit (f_cur m) :: l1 ++ EEnter s :: l2).
        rewrite L2, L1, <- !app_assoc. cbn. split; [reflexivity|].
        rewrite moves_app, M1. cbn. constructor; [congruence|assumption]. }
    destruct (f_transit (f_run n A) A s m) as [[m1 [|]]|] eqn:E; [|  |discriminate].
    + injection H as <- <-. eauto.
    + destruct (T _ _ eq_refl) as (l1 & L1 & C1). apply IH in H as (l2 & L2 & C2). exists (l1 ++ l2).
      rewrite L2, L1, app_assoc. split; [reflexivity|]. rewrite moves_app. eapply walk_app; eassumption.
Qed.
Print Assumptions C156_walk.

(** A transition to the state the machine is in runs no action and changes nothing. *)
Theorem C156_self : forall A n k m,
  f_run (S n) A (AGo (f_cur m) k) m =
  f_run n A (k (f_log m ++ [ERefused (f_cur m)])) (mkF (f_cur m) (f_log m ++ [ERefused (f_cur m)])).
Proof. intros A n k m. cbn. unfold f_transit. now rewrite Z.eqb_refl. Qed.
Print Assumptions C156_self.

(** A transition that returns without exception has run the exit action of the old state and then the entry action of the new one,
    each once if they do not change the state themselves. *)
Theorem C156_transit : forall A, (forall s l, quiet (a_exit A s l)) -> (forall s l, quiet (a_enter A s l)) ->
  forall n s m m', s <> f_cur m -> f_run n A (AGo s (fun _ => ADone)) m = Some (m', false) ->
  f_cur m' = s /\ exists l, f_log m' = f_log m ++ l /\ moves l = [EExit (f_cur m); EEnter s].
Proof.
  intros A HX HE n s m m' Ne H. destruct n as [|n]; [discriminate|]. cbn in H. unfold f_transit in H.
  destruct (Z.eqb_spec s (f_cur m)) as [?|_]; [congruence|].
  destruct (f_run n A (a_exit A _ _) _) as [[m2 b2]|] eqn:E; [|discriminate].
  pose proof (quiet_run _ _ _ _ _ _ (HX _ _) E) as ->.
  apply steady_run in E as (E1 & l1 & L1 & M1 & N1); [|apply quiet_steady, HX]. cbn in E1, L1.
  destruct (f_run n A (a_enter A _ _) _) as [[m3 b3]|] eqn:E3; [|discriminate].
  pose proof (quiet_run _ _ _ _ _ _ (HE _ _) E3) as ->.
  apply steady_run in E3 as (E3 & l3 & L3 & M3 & N3); [|apply quiet_steady, HE]. cbn in E3, L3.
  destruct n as [|n]; [discriminate|]. cbn in H. injection H as <-. split; [assumption|].
  exists (EExit (f_cur m) :: l1 ++ EEnter s :: l3). rewrite L3, L1, <- !app_assoc. cbn.
  split; [reflexivity|]. rewrite moves_app, M1. cbn. now rewrite M3.
Qed.
Print Assumptions C156_transit.

(** The outcome of an execution, whatever the depth of its calls. *)
Definition runs (A : actions) (a : act) (m m' : fsm) (b : bool) : Prop := exists n, f_run n A a m = Some (m', b).
Lemma run_deeper A : forall n a m r, f_run n A a m = Some r -> forall k, (n <= k)%nat -> f_run k A a m = Some r.
Proof.
  induction n as [|n IH]; intros a m r H k Hk; [discriminate|]. destruct k as [|k]; [lia|]. assert (Hk' : (n <= k)%nat) by lia.
  destruct a as [| |x j|s j]; cbn in H |- *; [assumption|assumption|now apply IH|].
  assert (T : forall r1, f_transit (f_run n A) A s m = Some r1 -> f_transit (f_run k A) A s m = Some r1).
  { intros r1. unfold f_transit. destruct (s =? f_cur m); [auto|].
    destruct (f_run n A (a_exit A _ _) _) as [[m2 b2]|] eqn:E; [|discriminate]. rewrite (IH _ _ _ E _ Hk').
    destruct b2; [auto|]. intros E2. now apply IH. }
  destruct (f_transit (f_run n A) A s m) as [[m1 b1]|] eqn:E; [|discriminate]. rewrite (T _ eq_refl). destruct b1; [assumption|]. now apply IH.
Qed.
Lemma does_run A l a r b : does l a r b -> forall m, f_log m = l -> runs A a m (mkF (f_cur m) (l ++ r)) b.
Proof.
  induction 1 as [l|l|l x k r b D IH]; intros m <-.
  - exists 1%nat. cbn. rewrite app_nil_r. now destruct m.
  - exists 1%nat. cbn. rewrite app_nil_r. now destruct m.
  - destruct (IH (f_add m (EDo x)) eq_refl) as [n Hn]. exists (S n). cbn. cbn in Hn. rewrite Hn, <- app_assoc. reflexivity.
Qed.

(** An execution has one outcome. *)
Theorem C156_one_outcome : forall A a m m1 b1 m2 b2, runs A a m m1 b1 -> runs A a m m2 b2 -> m1 = m2 /\ b1 = b2.
Proof.
  intros A a m m1 b1 m2 b2 [n H1] [k H2]. apply run_deeper with (k := Nat.max n k) in H1; [|lia]. apply run_deeper with (k := Nat.max n k) in H2; [|lia].
  rewrite H1 in H2. injection H2 as <- <-. auto.
Qed.
Print Assumptions C156_one_outcome.

(** A transition to another state, up to its end: the exit action of the state left does what it does with the machine still in that state; if it
    throws, that is all, the machine stays and the caller gets the exception.  Otherwise the entry action does what it does, also
    change the state again, with the machine in the new state; the caller gets its exception, or goes on where it left the machine. *)
Theorem C156_actions : forall A s m k l1 b1, s <> f_cur m ->
  let before := f_log m ++ [EExit (f_cur m)] in
  does before (a_exit A (f_cur m) before) l1 b1 ->
  if b1 then runs A (AGo s k) m (mkF (f_cur m) (before ++ l1)) true
  else let entry := (before ++ l1) ++ [EEnter s] in
       forall r b, runs A (a_enter A s entry) (mkF s entry) r b ->
       if b then runs A (AGo s k) m r true
       else forall r2 b2, runs A (k (f_log r)) r r2 b2 -> runs A (AGo s k) m r2 b2.
Proof.
  intros A s m k l1 b1 Ne before D. destruct (does_run A _ _ _ _ D (f_add m (EExit (f_cur m))) eq_refl) as [n1 H1]. cbn in H1. fold before in H1.
  apply Z.eqb_neq in Ne. destruct b1.
  - exists (S n1). cbn. unfold f_transit. rewrite Ne. cbn. fold before. now rewrite H1.
  - intros entry r b [n2 H2]. destruct b.
    + exists (S (Nat.max n1 n2)). cbn. unfold f_transit. rewrite Ne. cbn. fold before.
      rewrite (run_deeper _ _ _ _ _ H1) by lia. cbn. fold entry. unfold f_add. cbn. fold entry. now rewrite (run_deeper _ _ _ _ _ H2) by lia.
    + intros r2 b2 [n3 H3]. exists (S (Nat.max n1 (Nat.max n2 n3))). cbn. unfold f_transit. rewrite Ne. cbn. fold before.
      rewrite (run_deeper _ _ _ _ _ H1) by lia. unfold f_add. cbn. fold entry. rewrite (run_deeper _ _ _ _ _ H2) by lia.
      apply (run_deeper _ _ _ _ _ H3). lia.
Qed.
Print Assumptions C156_actions.

(** From construction on: a walk from the first state, whose entry action is not run, to the current one. *)
Theorem C156_history : forall A, (forall s l, quiet (a_exit A s l)) ->
  forall a s m b, runs A a (f_new s) m b -> walk s (moves (f_log m)) (f_cur m).
Proof.
  intros A HA a s m b [n H]. destruct (C156_walk A HA _ _ _ _ _ H) as (l & L & W). cbn in L, W. now rewrite L.
Qed.
Print Assumptions C156_history.

(** Without the conditions on exit actions the claim is false.  An exit action that throws leaves the machine in a state whose exit action
    has run, and it runs again later; an exit action that changes the state calls itself without end; if it does so only the first time, the
    state it entered is never left. *)
Theorem C156_conditions_needed :
  (exists A a m b, f_run 9 A a (f_new 0) = Some (m, b) /\ f_cur m = 0 /\ moves (f_log m) = [EExit 0] /\
     exists m2, f_run 9 A (AGo 1 (fun _ => ADone)) m = Some (m2, false) /\ moves (f_log m2) = [EExit 0; EExit 0; EEnter 1]) /\
  (forall A s t k, t <> s -> (forall l, a_exit A s l = AGo t k) -> forall n u k' m, f_cur m = s -> u <> s -> f_run n A (AGo u k') m = None) /\
  (exists A a m, f_run 9 A a (f_new 0) = Some (m, false) /\ moves (f_log m) = [EExit 0; EExit 0; EEnter 2; EEnter 1] /\ f_cur m = 1).
Proof.
  split; [|split].
  - exists (mkA (fun _ _ => ADone) (fun _ l => if (length l =? 1)%nat then AThrow else ADone)), (AGo 1 (fun _ => ADone)).
    do 2 eexists. split; [vm_compute; reflexivity|]. split; [reflexivity|]. split; [reflexivity|].
    eexists. split; vm_compute; reflexivity.
  - intros A s t k Nt HX n. induction n as [|n IH]; intros u k' m Hm Hu; [reflexivity|]. cbn. unfold f_transit.
    destruct (Z.eqb_spec u (f_cur m)) as [?|_]; [congruence|]. rewrite Hm, HX, IH; auto.
  - exists (mkA (fun _ _ => ADone) (fun _ l => if (length l =? 1)%nat then AGo 2 (fun _ => ADone) else ADone)), (AGo 1 (fun _ => ADone)).
    eexists. split; [vm_compute; reflexivity|]. split; reflexivity.
Qed.
Print Assumptions C156_conditions_needed.

(** A machine whose entry into state 1 goes on to state 2, as the connection library's entry into
    Connected does when the user closes the connection from inside the notification (ServerConnectionConnected.cpp 8-13): the rest of the
    entry action runs in state 2. *)
Example C156_case :
  let A := mkA (fun s _ => if s =? 1 then AGo 2 (fun _ => ADo 7 (fun _ => ADone)) else ADone) (fun _ _ => ADo 5 (fun _ => ADone)) in
  option_map (fun r => (f_cur (fst r), f_log (fst r))) (f_run 9 A (AGo 1 (fun _ => ADone)) (f_new 0)) =
    Some (2, [EExit 0; EDo 5; EEnter 1; EExit 1; EDo 5; EEnter 2; EDo 7]) /\
  (forall s l, quiet (a_exit A s l)).
Proof. split; [vm_compute; reflexivity|]. intros s l. cbn. constructor. intros. constructor. Qed.

(** C156_actions: an exit action that records something, an entry action that throws. *)
Example C156_actions_case :
  let A := mkA (fun _ _ => ADo 8 (fun _ => AThrow)) (fun _ _ => ADo 5 (fun _ => ADone)) in
  does [EExit 0] (a_exit A 0 [EExit 0]) [EDo 5] false /\
  runs A (AGo 1 (fun _ => AGo 2 (fun _ => ADone))) (f_new 0) (mkF 1 [EExit 0; EDo 5; EEnter 1; EDo 8]) true.
Proof. split; [repeat constructor|]. exists 9%nat. vm_compute. reflexivity. Qed.
