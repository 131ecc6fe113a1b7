(** Proofs about the end of the process. *)
From Verif Require Import Base ShutdownModel ShutdownSpec.
Local Open Scope Z_scope.

Definition created (t : tst) : Prop := t <> TNew.
(** What a thread's state says about the reactor. *)
Definition sane (t : tst) : Prop := match t with TCall (TBatch _) | TCall (TMsgs _ _) => True | TCall _ => False | _ => True end.
Record XInv (s : sys) : Prop := {
  xi_sane : Forall (fun r => sane (r_thr r)) (s_rs s);
  xi_end : Forall (fun r => r_thr r = TEnd -> r_stop r = true) (s_rs s);
  (* before stop(), and when something failed, nobody was told to stop *)
  xi_go : match s_main s with MStart _ | MServe => True | MStop _ | MNap => False | m => failed m = true end -> Forall (fun r => r_stop r = false) (s_rs s);
  (* after a successful start() all threads exist; in start() those before [i] *)
  xi_made : match s_main s with
            | MStart i => Forall (fun r => created (r_thr r)) (firstn i (s_rs s))
            | m => failed m = false -> Forall (fun r => created (r_thr r)) (s_rs s)
            end;
  xi_stop : match s_main s with MStop i => Forall (fun r => r_stop r = true) (firstn i (s_rs s)) | _ => past_stop s -> Forall (fun r => r_stop r = true) (s_rs s) end;
  (* with a failure the main thread gets no further than the first reactor *)
  xi_stuck : s_rs s <> [] -> match s_main s with MPools i true | MJoin i true => i = 0%nat | MExit true => False | _ => True end;
  xi_range : match s_main s with MJoin i _ => (i < length (s_rs s))%nat | MPools i _ => (i <= length (s_rs s))%nat | _ => True end
}.
Lemma Forall_upd {A} (P : A -> Prop) l i x : Forall P l -> P x -> Forall P (upd l i x).
Proof. intros H. revert i. induction H as [|y l Hy H IH]; intros i Hx; [constructor|]. destruct i; cbn [upd]; constructor; auto. Qed.
Lemma Forall_nth {A} (P : A -> Prop) l i x : Forall P l -> nth_error l i = Some x -> P x.
Proof. intros H E. rewrite Forall_forall in H. apply H. eapply nth_error_In; exact E. Qed.
Lemma firstn_upd {A} (l : list A) i x : firstn i (upd l i x) = firstn i l.
Proof. revert i. induction l as [|y l IH]; intros [|i]; cbn; auto. now rewrite IH. Qed.
Lemma firstn_S_upd {A} (l : list A) i x y : nth_error l i = Some y -> firstn (S i) (upd l i x) = firstn i l ++ [x].
Proof. revert i. induction l as [|z l IH]; intros [|i] H; cbn in *; try discriminate; [reflexivity|]. now rewrite <- (IH i H). Qed.
Lemma Forall_firstn {A} (P : A -> Prop) l i : Forall P l -> Forall P (firstn i l).
Proof. intros H. revert i. induction H; intros [|i]; cbn; constructor; auto. Qed.
Lemma Forall_firstn_upd {A} (P : A -> Prop) l k i x : Forall P (firstn k l) -> P x -> Forall P (firstn k (upd l i x)).
Proof. revert k i. induction l as [|y l IH]; intros [|k] i H Hx; cbn in *; try constructor; destruct i; cbn; inversion H; subst; constructor; auto. Qed.

Lemma thr_made comps r es ok t : sane (r_thr r) -> thr_step comps r es ok = Some (Some t) -> created (r_thr r) /\ created t /\ sane t /\ (t = TEnd -> r_stop r = true).
Proof.
  unfold thr_step, created. intros S H. destruct (r_thr r) as [| | |[|[n|] rest]|[|n] rest|k|]; try discriminate H.
  - injection H as <-. destruct (r_stop r); repeat split; discriminate || auto.
  - destruct (Nat.leb _ _); [injection H as <-|discriminate H]. repeat split; discriminate.
  - injection H as <-. repeat split; discriminate.
  - injection H as <-. destruct (r_stop r); repeat split; discriminate.
  - destruct (comps && r_alive r); [injection H as <-|discriminate H]. repeat split; discriminate.
  - injection H as <-. repeat split; discriminate.
  - destruct (comps && r_alive r); [injection H as <-|discriminate H]. repeat split; discriminate.
  - destruct (comps && r_alive r); [|discriminate H]. injection H as <-. cbn in S. destruct ok; [|repeat split; discriminate]. destruct k; try contradiction; repeat split; discriminate.
Qed.
Lemma xinv0 n : XInv (sys0 n).
Proof.
  split; cbn; auto; try (intros; contradiction).
  - apply Forall_forall. intros r Hr. apply repeat_spec in Hr. subst r. exact I.
  - apply Forall_forall. intros r Hr. apply repeat_spec in Hr. subst r. discriminate.
  - intros _. apply Forall_forall. intros r Hr. apply repeat_spec in Hr. now subst r.
  - intros [_ []].
Qed.
Lemma xinv_step s e s' : XInv s -> xstep s e = XNext s' -> XInv s' /\ length (s_rs s') = length (s_rs s).
Proof.
  intros [I0 I1 I2 I3 I4 I5 I6] H. destruct e as [x|i es ok]; cbn [xstep] in H.
  - unfold main_step, at_reactor in H. destruct (s_main s) as [i| |i| |f|i f|i f|f] eqn:Em; cbn [failed] in *.
    + destruct (nth_error (s_rs s) i) as [r|] eqn:Er.
      * specialize (I2 I). pose proof (Forall_nth _ _ _ _ I2 Er) as Hr. cbn in Hr. pose proof (Forall_nth _ _ _ _ I1 Er) as Hr1. cbn in Hr1.
        destruct x; injection H as <-; (split; [|cbn [to_main set_rs s_rs]; now rewrite ?upd_length]); split; cbn [to_main set_rs s_rs s_main failed]; auto; try (apply Forall_upd; cbn; auto; discriminate); try (intros; apply Forall_upd; cbn; auto; discriminate); try (intros [? []]); try discriminate; try (intros [Z _]; discriminate Z).
        rewrite (firstn_S_upd _ _ _ _ Er). apply Forall_app. split; [exact I3|repeat constructor; discriminate].
      * injection H as <-. split; [|reflexivity]. split; cbn [to_main s_rs s_main failed]; auto; try (intros [_ []]).
        intros _. rewrite firstn_all2 in I3; [exact I3|]. now apply nth_error_None.
    + injection H as <-. split; [|reflexivity]. specialize (I2 I). destruct x; split; cbn [to_main s_rs s_main failed]; auto; try (intros []; fail); try discriminate; try constructor; try (intros [Z _]; discriminate Z).
    + destruct (nth_error (s_rs s) i) as [r|] eqn:Er; injection H as <-.
      * split; [|cbn [to_main set_rs s_rs]; now rewrite ?upd_length]. split; cbn [to_main set_rs s_rs s_main failed]; auto; try (intros []; fail).
        -- apply Forall_upd; [exact I0|]. exact (Forall_nth _ _ _ _ I0 Er).
        -- apply Forall_upd; [exact I1|]. reflexivity.
        -- intros _. apply Forall_upd; [now apply I3|]. exact (Forall_nth _ _ _ _ (I3 eq_refl) Er).
        -- rewrite (firstn_S_upd _ _ _ _ Er). apply Forall_app. split; [exact I4|now repeat constructor].
      * split; [|reflexivity]. split; cbn [to_main s_rs s_main failed]; auto; try (intros []; fail). intros _. rewrite firstn_all2 in I4; [exact I4|]. now apply nth_error_None.
    + injection H as <-. split; [|reflexivity]. split; cbn [to_main s_rs s_main failed]; auto; try discriminate. intros _. apply I4. split; [rewrite Em; reflexivity|now rewrite Em].
    + injection H as <-. split; [|reflexivity]. split; cbn [s_rs s_main failed]; auto.
      * intros [P _]. cbn in P. apply I4. split; [now rewrite Em|now rewrite Em].
      * intros _. now destruct f.
      * lia.
    + destruct (nth_error (s_rs s) i) as [r|] eqn:Er; injection H as <-.
      * split; [|cbn [to_main set_rs s_rs]; now rewrite ?upd_length]. split; cbn [to_main set_rs s_rs s_main failed]; auto.
        -- apply Forall_upd; [exact I0|]. exact (Forall_nth _ _ _ _ I0 Er).
        -- apply Forall_upd; [exact I1|]. exact (Forall_nth _ _ _ _ I1 Er).
        -- intros F. apply Forall_upd; [now apply I2|]. exact (Forall_nth _ _ _ _ (I2 F) Er).
        -- intros F. apply Forall_upd; [now apply I3|]. exact (Forall_nth _ _ _ _ (I3 F) Er).
        -- intros [P _]. cbn in P. assert (P' : past_stop s) by (split; [now rewrite Em|now rewrite Em]). apply Forall_upd; [now apply I4|]. exact (Forall_nth _ _ _ _ (I4 P') Er).
        -- intros _. apply I5. intros N. rewrite N in Er. destruct i; discriminate Er.
        -- rewrite upd_length. apply nth_error_Some. congruence.
      * split; [|reflexivity]. split; cbn [to_main s_rs s_main failed]; auto.
        -- intros [P _]. cbn in P. apply I4. split; [now rewrite Em|now rewrite Em].
        -- intros N. specialize (I5 N). destruct f; auto. subst i. destruct (s_rs s); [now apply N|discriminate Er].
    + destruct (nth_error (s_rs s) i) as [r|] eqn:Er; [|discriminate H]. destruct (r_thr r) eqn:Et; try discriminate H. injection H as <-. split; [|reflexivity]. split; cbn [to_main s_rs s_main failed]; auto; try lia.
      * intros [P _]. cbn in P. apply I4. split; [now rewrite Em|now rewrite Em].
      * intros N. destruct f; auto. exfalso. pose proof (Forall_nth _ _ _ _ I1 Er Et) as A. pose proof (Forall_nth _ _ _ _ (I2 eq_refl) Er) as B. cbn in *. congruence.
    + discriminate H.
  - unfold at_reactor in H. destruct (nth_error (s_rs s) i) as [r|] eqn:Er; [|discriminate H]. destruct (thr_step (s_comps s) r es ok) as [[t|]|] eqn:Et; try discriminate H. injection H as <-.
    destruct (thr_made _ _ _ _ _ (Forall_nth _ _ _ _ I0 Er) Et) as (C1 & C2 & C3 & C4). split; [|cbn [set_rs s_rs]; now rewrite upd_length].
    assert (N : s_rs s <> []) by (intros N; rewrite N in Er; destruct i; discriminate Er).
    split; cbn [set_rs s_rs s_main].
    + apply Forall_upd; auto.
    + apply Forall_upd; auto.
    + intros F. apply Forall_upd; [now apply I2|]. exact (Forall_nth _ _ _ _ (I2 F) Er).
    + destruct (s_main s); try (intros F; apply Forall_upd; [now apply I3|exact C2]). apply Forall_firstn_upd; [exact I3|exact C2].
    + assert (Q : past_stop s -> Forall (fun r => r_stop r = true) (upd (s_rs s) i (mkR (r_stop r) (r_alive r) t))).
      { intros P. assert (A : Forall (fun r => r_stop r = true) (s_rs s)) by (pose proof P as P0; destruct P as [_ P2]; destruct (s_main s); try contradiction; exact (I4 P0)).
        apply Forall_upd; [exact A|]. exact (Forall_nth _ _ _ _ A Er). }
      destruct (s_main s) as [j| |j| |f|j f|j f|f] eqn:Em; try exact Q.
      revert I4 Er. clear. generalize (s_rs s) as l. intros l H E. revert i j H E. induction l as [|y l IH]; intros [|i] [|k] H E; cbn in *; try discriminate E; try constructor; inversion H; subst; auto. now injection E as <-.
    + intros _. now apply I5.
    + rewrite upd_length. destruct (s_main s); auto.
Qed.
Lemma xreach_inv n s : xreach n s -> XInv s /\ length (s_rs s) = n.
Proof.
  induction 1 as [|s e s' _ [IH L] H]; [split; [apply xinv0|apply repeat_length]|]. destruct (xinv_step s e s' IH H) as [A B]. split; [exact A|congruence].
Qed.

Lemma xruns_reach n s es s' : xreach n s -> xruns s es s' -> xreach n s'.
Proof. intros R H. induction H; eauto using xreach. Qed.
Lemma list_sum_upd (f : rs -> nat) l i r x : nth_error l i = Some r -> (list_sum (map f (upd l i x)) + f r = list_sum (map f l) + f x)%nat.
Proof.
  unfold list_sum. revert i. induction l as [|y l IH]; intros [|i] H; try discriminate H; cbn [upd map fold_right nth_error] in *; [injection H as ->; lia|]. specialize (IH i H). lia.
Qed.

(** * Steps left after stop() *)
Lemma thr_less comps r es ok t : r_stop r = true -> thr_step comps r es ok = Some (Some t) -> (thr_left t < thr_left (r_thr r))%nat.
Proof.
  intros S H. unfold thr_step in H. rewrite S in H. destruct (r_thr r) as [| | |[|[n|] rest]|[|n] rest|k|]; try discriminate H.
  - injection H as <-. cbn. lia.
  - destruct (Nat.leb _ _) eqn:El; [injection H as <-|discriminate H]. apply Nat.leb_le in El. unfold maxEvents in El. cbn [thr_left]. lia.
  - injection H as <-. cbn. lia.
  - injection H as <-. cbn [thr_left length]. lia.
  - destruct (comps && r_alive r); [injection H as <-|discriminate H]. cbn [thr_left length]. lia.
  - injection H as <-. cbn [thr_left]. lia.
  - destruct (comps && r_alive r); [injection H as <-|discriminate H]. cbn [thr_left]. lia.
  - destruct (comps && r_alive r); [|discriminate H]. injection H as <-. destruct ok; cbn [thr_left]; lia.
Qed.
Lemma past_stop_step s e s' : XInv s -> past_stop s -> xstep s e = XNext s' -> past_stop s' /\ (left_over s' < left_over s)%nat.
Proof.
  intros Inv P H. pose proof (xinv_step s e s' Inv H) as [_ L]. destruct Inv as [I0 I1 I2 I3 I4 I5 I6].
  assert (St : Forall (fun r => r_stop r = true) (s_rs s)) by (pose proof P as [_ P2]; destruct (s_main s); try contradiction; exact (I4 P)).
  unfold left_over. rewrite L. destruct e as [x|i es ok]; cbn [xstep] in H.
  - destruct P as [P1 P2]. unfold main_step, at_reactor in H. destruct (s_main s) as [i| |i| |f|i f|i f|f] eqn:Em; try contradiction; cbn [failed] in P1; subst.
    + injection H as <-. split; [split; [reflexivity|exact I]|]. cbn [to_main s_main s_rs main_left]. lia.
    + injection H as <-. split; [split; [reflexivity|exact I]|]. cbn [to_main s_main s_rs main_left]. lia.
    + destruct (nth_error (s_rs s) i) as [r|] eqn:Er; injection H as <-.
      * split; [split; [reflexivity|exact I]|]. cbn [to_main set_rs s_main s_rs]. pose proof (list_sum_upd (fun r => thr_left (r_thr r)) _ _ _ (mkR (r_stop r) false (r_thr r)) Er) as U. cbn [r_thr] in U. cbn [main_left].
        assert (i < length (s_rs s))%nat by (apply nth_error_Some; congruence). lia.
      * split; [split; [reflexivity|exact I]|]. cbn [to_main s_main s_rs main_left]. lia.
    + destruct (nth_error (s_rs s) i) as [r|] eqn:Er; [|discriminate H]. destruct (r_thr r); try discriminate H. injection H as <-. split; [split; [reflexivity|exact I]|]. cbn [to_main s_main s_rs main_left]. lia.
    + discriminate H.
  - unfold at_reactor in H. destruct (nth_error (s_rs s) i) as [r|] eqn:Er; [|discriminate H]. destruct (thr_step (s_comps s) r es ok) as [[t|]|] eqn:Et; try discriminate H. injection H as <-.
    split; [exact P|]. cbn [set_rs s_main s_rs]. pose proof (thr_less _ _ _ _ _ (Forall_nth _ _ _ _ St Er) Et). pose proof (list_sum_upd (fun r => thr_left (r_thr r)) _ _ _ (mkR (r_stop r) (r_alive r) t) Er) as U. cbn [r_thr] in U. lia.
Qed.
Lemma past_stop_runs s es s' : xruns s es s' -> XInv s -> past_stop s -> past_stop s' /\ (length es + left_over s' <= left_over s)%nat.
Proof.
  induction 1 as [s|s e s1 es s2 H _ IH]; intros Inv P; [split; [exact P|cbn; lia]|]. destruct (past_stop_step s e s1 Inv P H) as [P1 L1]. destruct (IH (proj1 (xinv_step s e s1 Inv H)) P1) as [P2 L2]. split; [exact P2|]. cbn [length]. lia.
Qed.
(** Something can go on until the end. *)
Lemma thr_moves comps r : created (r_thr r) -> r_thr r <> TEnd -> thr_step comps r [] true <> Some None.
Proof. unfold thr_step. intros C E. destruct (r_thr r) as [| | |[|[n|] rest]|[|n] rest|k|]; try destruct (comps && r_alive r); try discriminate; contradiction. Qed.
Lemma goes_on s : XInv s -> past_stop s -> s_main s <> MExit false -> exists e, xstep s e <> XDisabled.
Proof.
  intros [I0 I1 I2 I3 I4 I5 I6] [P1 P2] N. destruct (s_main s) as [i| |i| |f|i f|i f|f] eqn:Em; try contradiction; cbn [failed] in *; subst.
  - exists (XMain SOk). cbn. unfold main_step. rewrite Em. discriminate.
  - exists (XMain SOk). cbn. unfold main_step. rewrite Em. discriminate.
  - exists (XMain SOk). cbn. unfold main_step, at_reactor. rewrite Em. destruct (nth_error _ _); discriminate.
  - destruct (nth_error (s_rs s) i) as [r|] eqn:Er; [|apply nth_error_None in Er; lia]. pose proof (Forall_nth _ _ _ _ (I3 eq_refl) Er) as C. cbn in C.
    destruct (r_thr r) eqn:Et; try (exists (XThr i [] true); cbn [xstep]; unfold at_reactor; rewrite Er; pose proof (thr_moves (s_comps s) r) as M; rewrite Et in M; specialize (M C ltac:(discriminate)); destruct (thr_step (s_comps s) r [] true) as [[]|]; congruence || discriminate).
    exists (XMain SOk). cbn [xstep]. unfold main_step, at_reactor. rewrite Em, Er, Et. discriminate.
  - now destruct N.
Qed.

(** * A patient main thread *)
Definition PInv (s : sys) : Prop :=
  match s_main s with
  | MStart _ | MServe | MStop _ | MNap => s_comps s = true /\ Forall (fun r => r_alive r = true) (s_rs s)
  | m => failed m = false /\ all_ended s
  end.
Lemma pinv_step s e s' : PInv s -> patient s e -> xstep s e = XNext s' -> PInv s'.
Proof.
  unfold PInv, patient. intros Hp Hq H. destruct e as [x|i es ok]; cbn [xstep] in H.
  - unfold main_step, at_reactor in H. destruct (s_main s) as [i| |i| |f|i f|i f|f] eqn:Em; cbn [failed] in *.
    + subst x. destruct Hp as [A B]. destruct (nth_error (s_rs s) i) as [r|] eqn:Er; injection H as <-; cbn [to_main set_rs s_main s_comps s_rs]; split; auto. apply Forall_upd; [exact B|]. exact (Forall_nth _ _ _ _ B Er).
    + subst x. injection H as <-. exact Hp.
    + destruct Hp as [A B]. destruct (nth_error (s_rs s) i) as [r|] eqn:Er; injection H as <-; cbn [to_main set_rs s_main s_comps s_rs]; split; auto. apply Forall_upd; [exact B|]. exact (Forall_nth _ _ _ _ B Er).
    + injection H as <-. cbn. auto.
    + injection H as <-. exact Hp.
    + destruct Hp as [A B]. destruct (nth_error (s_rs s) i) as [r|] eqn:Er; injection H as <-; cbn [to_main set_rs s_main s_comps s_rs failed]; split; auto. unfold all_ended. cbn [s_rs]. apply Forall_upd; [exact B|]. exact (Forall_nth _ _ _ _ B Er).
    + destruct (nth_error (s_rs s) i) as [r|] eqn:Er; [|discriminate H]. destruct (r_thr r); try discriminate H. injection H as <-. exact Hp.
    + discriminate H.
  - unfold at_reactor in H. destruct (nth_error (s_rs s) i) as [r|] eqn:Er; [|discriminate H]. destruct (thr_step (s_comps s) r es ok) as [[t|]|] eqn:Et; try discriminate H. injection H as <-. cbn [set_rs s_main s_comps s_rs].
    assert (E : all_ended s -> False) by (intros E; pose proof (Forall_nth _ _ _ _ E Er) as C; cbn in C; unfold thr_step in Et; rewrite C in Et; discriminate Et).
    assert (A : Forall (fun r => r_alive r = true) (s_rs s) -> Forall (fun r0 => r_alive r0 = true) (upd (s_rs s) i (mkR (r_stop r) (r_alive r) t))) by (intros A; apply Forall_upd; [exact A|]; exact (Forall_nth _ _ _ _ A Er)).
    destruct (s_main s); try (destruct Hp as [? Hp]; now destruct (E Hp)); destruct Hp; split; auto.
Qed.
Lemma preach_inv n s : preach n s -> PInv s /\ xreach n s.
Proof.
  induction 1 as [|s e s' _ [IH R] Q H]; [split; [split; [reflexivity|]|constructor]|split; [eauto using pinv_step|econstructor; eauto]].
  apply Forall_forall. intros r Hr. apply repeat_spec in Hr. now subst r.
Qed.
Lemma preach_sound n s e : preach n s -> patient s e -> xstep s e <> XBad.
Proof.
  intros R Q. destruct (preach_inv n s R) as [P X]. destruct (xreach_inv n s X) as [Inv _]. destruct e as [x|i es ok]; cbn [xstep].
  - unfold main_step, at_reactor. unfold PInv in P. destruct (s_main s) as [i| |i| |f|i f|i f|f] eqn:Em; try discriminate; try (destruct (nth_error (s_rs s) i) as [r|] eqn:Er; try discriminate).
    + destruct x; discriminate.
    + destruct P as [_ P]. pose proof (Forall_nth _ _ _ _ P Er) as C. cbn in C. rewrite C. discriminate.
  - unfold at_reactor. destruct (nth_error (s_rs s) i) as [r|] eqn:Er; [|discriminate]. destruct (thr_step (s_comps s) r es ok) as [[t|]|] eqn:Et; try discriminate. exfalso.
    unfold PInv in P. assert (C : (s_comps s && r_alive r = true) \/ r_thr r = TEnd).
    { destruct (s_main s); destruct P as [P1 P2]; try (right; exact (Forall_nth _ _ _ _ P2 Er)); left; rewrite P1; exact (Forall_nth _ _ _ _ P2 Er). }
    unfold thr_step in Et. destruct C as [C|C]; rewrite C in Et; [|discriminate Et]. destruct (r_thr r) as [| | |[|[k|] rest]|[|k] rest|k|]; try discriminate Et. destruct (Nat.leb _ _); discriminate Et.
Qed.

(** * Messages after stop() *)
Lemma msgs_less comps r es ok t : r_stop r = true -> thr_step comps r es ok = Some (Some t) ->
  ((match r_thr r with TMsgs (S _) _ => 1 | _ => 0 end) + in_msgs t <= in_msgs (r_thr r))%nat.
Proof.
  intros S H. unfold thr_step in H. rewrite S in H. destruct (r_thr r) as [| | |[|[n|] rest]|[|n] rest|k|]; try discriminate H.
  - injection H as <-. cbn. lia.
  - destruct (Nat.leb _ _); [injection H as <-|discriminate H]. cbn. lia.
  - injection H as <-. cbn. lia.
  - injection H as <-. cbn. lia.
  - destruct (comps && r_alive r); [injection H as <-|discriminate H]. cbn. lia.
  - injection H as <-. cbn. lia.
  - destruct (comps && r_alive r); [injection H as <-|discriminate H]. cbn. lia.
  - destruct (comps && r_alive r); [|discriminate H]. injection H as <-. destruct ok; cbn; lia.
Qed.
Lemma msgs_bound s es s' i r : xruns s es s' -> nth_error (s_rs s) i = Some r -> r_stop r = true -> (msgs_started i s es <= in_msgs (r_thr r))%nat.
Proof.
  intros H. revert r. induction H as [s|s e s1 es s2 H _ IH]; intros r Er Hs; [cbn; lia|]. cbn [msgs_started]. rewrite H.
  assert (M : exists r1, nth_error (s_rs s1) i = Some r1 /\ r_stop r1 = true /\ ((if starts_msg s i e then 1 else 0) + in_msgs (r_thr r1) <= in_msgs (r_thr r))%nat).
  { destruct e as [x|j bs ok]; cbn [xstep starts_msg] in *.
    - (* the main thread *)
      unfold main_step, at_reactor in H.
      assert (U : forall k q a t, nth_error (s_rs s) k = Some q -> (t = r_thr q \/ in_msgs t = 0%nat) -> exists r1, nth_error (upd (s_rs s) k (mkR (if Nat.eqb i k then true else r_stop q) a t)) i = Some r1 /\ r_stop r1 = true /\ (0 + in_msgs (r_thr r1) <= in_msgs (r_thr r))%nat).
      { intros k q a t Eq Ht. destruct (Nat.eq_dec i k) as [->|Nk].
        - rewrite nth_error_upd_eq by (apply nth_error_Some; congruence). eexists. split; [reflexivity|]. rewrite Nat.eqb_refl. split; [reflexivity|]. cbn [r_thr]. assert (q = r) by congruence. subst q. destruct Ht as [->|Ht]; lia.
        - rewrite nth_error_upd_neq by auto. exists r. split; [exact Er|]. split; [exact Hs|lia]. }
      assert (SAME : exists r1, nth_error (s_rs s) i = Some r1 /\ r_stop r1 = true /\ (0 + in_msgs (r_thr r1) <= in_msgs (r_thr r))%nat) by (exists r; auto).
      assert (E : forall k q, nth_error (s_rs s) k = Some q -> (if Nat.eqb i k then true else r_stop q) = r_stop q) by (intros k q Eq; destruct (Nat.eqb_spec i k); [subst k; assert (q = r) by congruence; now subst q|reflexivity]).
      destruct (s_main s) as [k| |k| |f|k f|k f|f]; try (injection H as <-; exact SAME); try discriminate H.
      + destruct (nth_error (s_rs s) k) as [q|] eqn:Eq; [|injection H as <-; exact SAME]. destruct x; injection H as <-; try exact SAME; cbn [to_main set_rs s_rs]; rewrite <- (E k q Eq); apply (U k q _ _ Eq); now right.
      + destruct (nth_error (s_rs s) k) as [q|] eqn:Eq; injection H as <-; [|exact SAME]. cbn [to_main set_rs s_rs]. destruct (U k q (r_alive q) (r_thr q) Eq (or_introl eq_refl)) as (r1 & A & B & C). destruct (Nat.eqb_spec i k).
        * exists r1. auto.
        * exists r. rewrite nth_error_upd_neq by auto. split; [exact Er|]. split; [exact Hs|lia].
      + destruct (nth_error (s_rs s) k) as [q|] eqn:Eq; injection H as <-; [|exact SAME]. cbn [to_main set_rs s_rs]. rewrite <- (E k q Eq). apply (U k q _ _ Eq). now left.
      + destruct (nth_error (s_rs s) k) as [q|] eqn:Eq; [|discriminate H]. destruct (r_thr q); try discriminate H. injection H as <-. exact SAME.
    - rewrite Er. unfold at_reactor in H. destruct (nth_error (s_rs s) j) as [q|] eqn:Eq; [|discriminate H]. destruct (thr_step (s_comps s) q bs ok) as [[t|]|] eqn:Et; try discriminate H. injection H as <-. cbn [set_rs s_rs].
      destruct (Nat.eqb_spec i j) as [->|Nj].
      + assert (q = r) by congruence. subst q. rewrite nth_error_upd_eq by (apply nth_error_Some; congruence). eexists. split; [reflexivity|]. split; [exact Hs|]. cbn [r_thr]. pose proof (msgs_less _ _ _ _ _ Hs Et). destruct (r_thr r) as [| | | |[|]| |]; lia.
      + rewrite nth_error_upd_neq by auto. exists r. split; [exact Er|]. split; [exact Hs|lia]. }
  destruct M as (r1 & A & B & C). specialize (IH r1 A B). lia.
Qed.
