(** Theorems about the event loop and its pooled objects, C117-C121. *)
From Verif Require Import Base EventLoopModel EventLoopSpec EventLoopProofs.
Local Open Scope nat_scope.

Lemma lives_start os : lives (fst (execs loop_new os)) (snd (execs loop_new os)).
Proof. apply (lv_ops loop_new []). constructor. Qed.

(** * C117: a timer's handler is called once per start, when it expired, and never after stop, restart or release *)
Theorem C117_timely s t pre h post : lives s t -> t = pre ++ ATimerCall h :: post -> view h pre = VDue.
Proof. intros L E. destruct (lives_good s t L) as (_ & _ & T). exact (T pre h post E). Qed.
(** Every reported expiry the loop comes to while it still stands leads to the call, at once. *)
Theorem C117_delivered s t b pre e post i h : lives s t -> reportable s b -> snd (batch s b) = pre ++ AEntry e :: post ->
  en_obj e = RT i -> t_own (e_t s i) = Some h -> view h (t ++ pre) = VDue -> exists post', post = ATimerCall h :: post'.
Proof.
  intros L R E Eo O V. pose proof (lives_good s t L) as (W & Tv & Ty).
  destruct (batch_at b s pre e post W E) as (b1 & p & b2 & s' & s1 & t1 & x & -> & A & D & ->).
  pose proof (tkept_after s b1 s' pre i h W O A) as (W' & _ & K).
  assert (G' : good s' (t ++ pre)).
  { clear - A W Tv Ty. assert (G : good s t) by (exact (conj W (conj Tv Ty))). clear W Tv Ty. revert t G. induction A as [s|s e p s1 t1 r s2 t2 D A IH]; intros t G; [now rewrite app_nil_r|].
    change (AEntry e :: t1 ++ t2) with ([AEntry e] ++ t1 ++ t2). rewrite !app_assoc. apply IH. eapply good_dispatch; [exact D|]. apply good_quiet; [exact G|timeless|repeat constructor]. }
  destruct G' as (_ & [V1 V2] & _). destruct K as [K|[K _]]; [|rewrite (V2 h K) in V; discriminate].
  specialize (V1 i h K). rewrite V in V1. unfold dispatch in D. rewrite Eo in D. destruct (t_fd (e_t s' i)) as [[]|] eqn:F; try discriminate V1.
  unfold town in K. rewrite K in D. unfold called in D. destruct (execs _ (fst p)) as [s2 t2]. injection D as <- <- <-. cbn [app]. eauto.
Qed.
(** Two timers expire together; the first one's handler restarts the second, whose pending expiry is then not delivered;
    the restarted timer expires later and is delivered. *)
Definition two : list op := [OTimerNew true true; OTimerNew true true; OTimerStart 0; OTimerStart 1; OTick 0; OTick 1].
Definition both : list (entry * script) := [(mkEn (RT 0) 1%Z, ([OTimerStart 1; OTimerStop 0], false)); (mkEn (RT 1) 1%Z, ([], false))].
Definition s117 : loop := fst (execs loop_new two).
Definition s117b : loop := fst (execs (fst (batch s117 both)) [OTick 1]).
Example C117_case : exists t, lives (fst (batch s117b [(mkEn (RT 1) 1%Z, ([], false))])) t /\ reportable s117 both /\
  t = [ATimerNew 0; ATimerNew 1; ATimerStart 0; ATimerStart 1; ATick 0; ATick 1; AEntry (mkEn (RT 0) 1%Z); ATimerCall 0; ATimerStart 1; ATimerStop 0;
       AEntry (mkEn (RT 1) 1%Z); ATick 1; AEntry (mkEn (RT 1) 1%Z); ATimerCall 1].
Proof.
  assert (R : reportable s117 both).
  { split; [cbn; unfold MAX_EVENTS; lia|]. split; [constructor; [cbn; intros [H|[]]; discriminate|constructor; [intros []|constructor]]|]. repeat constructor. }
  eexists. split; [|split; [exact R|]].
  - eapply lv_wait.
    + eapply lv_ops. eapply lv_wait; [eexact (lives_start two)|exact R].
    + split; [cbn; unfold MAX_EVENTS; lia|]. split; [constructor; [intros []|constructor]|]. constructor; [reflexivity|constructor].
  - reflexivity.
Qed.

(** * C118: an event reaches the owner it was reported for *)
(** What a link's handler can be told in a batch: it is the owner the event was reported for, with the connection it had then
    unless that owner has closed it; or that owner has released the link and the handler's owner has created one, and more links
    have been created in the batch than were free when the events were reported. *)
Theorem C118_owner_partial s t b pre e h' ev c' post : lives s t -> reportable s b -> snd (batch s b) = pre ++ AEntry e :: ALinkCall h' ev c' :: post ->
  exists i h c, en_obj e = RL i /\ l_own (e_l s i) = Some h /\ l_fd (e_l s i) = Some c /\
    ((h' = h /\ (c' = Some c \/ In (ALinkClose h) pre)) \/
     (h' <> h /\ In (ALinkDel h) pre /\ In (ALinkNew h') pre /\ length (e_lf s) < count is_link_new pre)).
Proof.
  intros L (_ & ND & RD) E. pose proof (lives_good s t L) as (W & _).
  destruct (batch_at b s pre e _ W E) as (b1 & p & b2 & s' & s1 & t1 & x & -> & A & D & Ep).
  assert (W' : wf s'). { clear - A W. induction A; [exact W|]. apply IHA. eapply dispatch_wf; eauto. }
  apply dispatch_inv in D; [|exact W'].
  assert (T : exists s0, touched s' e s0 (ALinkCall h' ev c')).
  { destruct D as [D|i D1 D2|s0 a D].
    - cbn [app] in Ep. destruct b2 as [|[e2 p2] r2]; cbn [batch] in Ep; [discriminate|]. destruct (dispatch s' e2 p2) as [[s2 t2] []]; [discriminate|]. destruct (batch s2 r2). discriminate.
    - discriminate.
    - cbn [app] in Ep. injection Ep as <- _. eauto. }
  destruct T as (s0 & T). destruct (td_a _ _ _ _ T) as (i & Eo & O' & ->).
  rewrite map_app in ND. cbn [map fst] in ND. apply NoDup_remove in ND as [_ ND]. rewrite Eo in ND.
  apply Forall_app in RD as [_ RD]. inversion RD as [|? ? Re _]; subst. cbn [fst] in Re. rewrite Eo in Re. cbn [ready] in Re. destruct (l_fd (e_l s i)) as [c|] eqn:F; [|contradiction].
  destruct (l_own (e_l s i)) as [h|] eqn:O. 2:{ destruct (w_lc s W i O) as [Q _]. congruence. }
  assert (K : lkept (e_lf s) i h c s' pre).
  { apply (lkept_after s b1); auto. apply Forall_forall. intros y Hy Q. apply ND. apply in_or_app. left. rewrite <- Q. now apply (in_map (fun x => en_obj (fst x))). }
  exists i, h, c. repeat split; auto. destruct K as (_ & _ & K & Kf). destruct K as [[K1 K2]|(K1 & K2 & K3)].
  - left. split; [congruence|exact K2].
  - right. assert (h' <> h) by congruence. split; [assumption|]. split; [exact K2|]. split; [now apply K3|].
    destruct (Nat.lt_ge_cases (length (e_lf s)) (count is_link_new pre)) as [Hl|Hl]; [exact Hl|]. destruct (Kf Hl) as [[Q|Q] _]; congruence.
Qed.
(** With no free link left, a handler that releases a link and creates another makes the old link's event reach the new owner. *)
Definition full : list op := repeat (OLinkNew true) 32 ++ [OLinkConnect 0 true; OLinkConnect 1 true].
Definition b118 : list (entry * script) := [(mkEn (RL 1) 1%Z, ([OLinkDel 0; OLinkNew true; OLinkConnect 34 true], false)); (mkEn (RL 0) 1%Z, ([], false))].
Definition s118 : loop := fst (execs loop_new full).
Theorem C118_other_owner_refuted : exists s t b pre e h h' ev c' post i, lives s t /\ reportable s b /\
  snd (batch s b) = pre ++ AEntry e :: ALinkCall h' ev c' :: post /\ en_obj e = RL i /\ l_own (e_l s i) = Some h /\ h' <> h /\ ev = LData /\ c' <> l_fd (e_l s i).
Proof.
  exists s118. eexists. exists b118, [AEntry (mkEn (RL 1) 1%Z); ALinkCall 1 LData (Some 33); ALinkDel 0; ALinkNew 34; ALinkOpen 34 35], (mkEn (RL 0) 1%Z), 0, 34, LData, (Some 35), [], 0.
  split; [exact (lives_start full)|]. split; [|split; [vm_compute; reflexivity|split; [reflexivity|split; [vm_compute; reflexivity|split; [discriminate|split; [reflexivity|vm_compute; discriminate]]]]]].
  split; [cbn [length b118]; unfold MAX_EVENTS; lia|]. split; [constructor; [cbn; intros [H|[]]; discriminate|constructor; [intros []|constructor]]|]. constructor; [vm_compute; discriminate|constructor; [vm_compute; discriminate|constructor]].
Qed.
(** Its own handler closed the link: the owner is told of data on a link it has closed. *)
Definition one : list op := [OLinkNew true; OLinkConnect 0 true; OTimerNew true true; OTimerStart 2; OTick 2].
Definition b118c : list (entry * script) := [(mkEn (RT 0) 1%Z, ([OLinkClose 0], false)); (mkEn (RL 0) 1%Z, ([], false))].
Definition s118c : loop := fst (execs loop_new one).
Theorem C118_closed_refuted : exists s t b pre e h ev post, lives s t /\ reportable s b /\
  snd (batch s b) = pre ++ AEntry e :: ALinkCall h ev None :: post /\ In (ALinkClose h) pre /\ ev = LData.
Proof.
  exists s118c. eexists. exists b118c, [AEntry (mkEn (RT 0) 1%Z); ATimerCall 2; ALinkClose 0], (mkEn (RL 0) 1%Z), 0, LData, [].
  split; [exact (lives_start one)|]. split; [|split; [vm_compute; reflexivity|split; [cbn; tauto|reflexivity]]].
  split; [cbn [length b118c]; unfold MAX_EVENTS; lia|]. split; [constructor; [cbn; intros [H|[]]; discriminate|constructor; [intros []|constructor]]|].
  constructor; [reflexivity|]. constructor; [vm_compute; discriminate|constructor].
Qed.
Example C118_case : lives s118c (snd (execs loop_new one)) /\ reportable s118c [(mkEn (RL 0) 1%Z, ([], false))] /\
  snd (batch s118c [(mkEn (RL 0) 1%Z, ([], false))]) = [AEntry (mkEn (RL 0) 1%Z); ALinkCall 0 LData (Some 1)].
Proof.
  split; [exact (lives_start one)|]. split; [|reflexivity].
  split; [cbn [length]; unfold MAX_EVENTS; lia|]. split; [constructor; [intros []|constructor]|]. constructor; [vm_compute; discriminate|constructor].
Qed.

(** * C119: every reported event is handled *)
(** Whatever happens, the events the loop came to and the ones it dropped are the reported ones, in order. *)
Theorem C119_accounted_partial s t b : lives s t -> entries (snd (batch s b)) ++ lost (snd (batch s b)) = map fst b.
Proof. intros L. apply batch_entries. apply (lives_good s t L). Qed.
(** Events are dropped only when an exception left the handler called last, or a reported timer was released in the batch. *)
Theorem C119_causes_partial s t b l : lives s t -> reportable s b -> In (AThrow l) (snd (batch s b)) ->
  exists b1 e p b2, b = b1 ++ (e, p) :: b2 /\ l = map fst b2 /\
    (snd p = true \/ exists i h, en_obj e = RT i /\ t_own (e_t s i) = Some h /\ In (ATimerDel h) (snd (batch s b))).
Proof.
  intros L (_ & ND & RD) H. pose proof (lives_good s t L) as (W & _).
  destruct (batch_throw_at b s l W H) as (b1 & e & p & b2 & s' & pre & s1 & t1 & Eb & El & A & D & E). exists b1, e, p, b2. split; [exact Eb|]. split; [exact El|].
  assert (W' : wf s'). { clear - A W. induction A; [exact W|]. apply IHA. eapply dispatch_wf; eauto. }
  apply dispatch_inv in D; [|exact W']. remember true as x eqn:Ex. destruct D as [D|i D1 D2|s0 a D]; [discriminate| |now left].
  right. exists i. subst b. apply Forall_app in RD as [_ RD]. inversion RD as [|? ? Re _]; subst. cbn [fst] in Re. rewrite D1 in Re. cbn [ready] in Re.
  destruct (t_own (e_t s i)) as [h|] eqn:O. 2:{ pose proof (proj1 (w_tc s W i) O). congruence. }
  exists h. split; [exact D1|]. split; [reflexivity|]. rewrite E. apply in_or_app. left.
  destruct (tkept_after s b1 s' pre i h W O A) as (_ & _ & [K|[_ K]]); [|exact K]. apply (w_tc s' W') in D2. congruence.
Qed.
Theorem C119_all_partial s t b : lives s t -> reportable s b -> Forall (fun x => snd (snd x) = false) b -> (forall h, ~ In (ATimerDel h) (snd (batch s b))) ->
  entries (snd (batch s b)) = map fst b /\ lost (snd (batch s b)) = [].
Proof.
  intros L R Q N. assert (Z : lost (snd (batch s b)) = []).
  { assert (X : quietly (snd (batch s b))).
    { intros l H. destruct (C119_causes_partial s t b l L R H) as (b1 & e & p & b2 & -> & _ & [S|(i & h & _ & _ & S)]); [|exact (N h S)].
      apply Forall_app in Q as [_ Q]. inversion Q; subst. cbn in *. congruence. }
    revert X. generalize (snd (batch s b)) as u. induction u as [|a u IH]; intros X; [reflexivity|]. assert (Y : lost u = []) by (apply IH; intros l H; apply (X l); now right).
    destruct a; try exact Y. exfalso. eapply X. now left. }
  pose proof (C119_accounted_partial s t b L) as E. rewrite Z, app_nil_r in E. auto.
Qed.
(** No handler throws, and the event announcing pending messages is dropped: a handler released a timer that had expired too. *)
Definition three : list op := [OTimerNew true true; OTimerNew true true; OTimerStart 0; OTimerStart 1; OTick 0; OTick 1].
Definition b119 : list (entry * script) := [(mkEn (RT 0) 1%Z, ([OTimerDel 1], false)); (mkEn (RT 1) 1%Z, ([], false)); (mkEn RMsg 1%Z, ([], false))].
Definition s119 : loop := fst (execs loop_new three).
Theorem C119_dropped_refuted : exists s t b, lives s t /\ reportable s b /\ Forall (fun x => snd (snd x) = false) b /\ In (mkEn RMsg 1%Z) (lost (snd (batch s b))).
Proof.
  exists s119. eexists. exists b119. split; [exact (lives_start three)|]. split; [|split; [repeat constructor|vm_compute; tauto]].
  split; [cbn [length b119]; unfold MAX_EVENTS; lia|]. split; [|repeat constructor].
  constructor; [cbn; intros [H|[H|[]]]; discriminate|]. constructor; [cbn; intros [H|[]]; discriminate|]. constructor; [intros []|constructor].
Qed.

(** * C120: links and acceptors can be created again and again *)
(** A link can be created unless 32 are in use; so can an acceptor. *)
Theorem C120_links s t hd : lives s t -> (snd (exec s (OLinkNew hd)) = [AFail] <-> count is_link_new t = 32 + count is_link_del t).
Proof.
  intros L. destruct (lives_counts s t L) as (C & _ & _). unfold pool_capacity in C. cbn [exec]. destruct (e_lf s) as [|i r]; cbn [length snd] in *; split; intros H; try discriminate; auto; lia.
Qed.
Theorem C120_acceptors s t : lives s t -> (snd (exec s OAccNew) = [AFail] <-> count is_acc_new t = 32 + count is_acc_del t).
Proof.
  intros L. destruct (lives_counts s t L) as (_ & C & _). unfold pool_capacity in C. cbn [exec]. destruct (e_af s) as [|i r]; cbn [length snd] in *; split; intros H; try discriminate; auto; lia.
Qed.
(** Never more than 32 are in use. *)
Theorem C120_bounded s t : lives s t -> count is_link_new t <= 32 + count is_link_del t /\ count is_acc_new t <= 32 + count is_acc_del t.
Proof. intros L. destruct (lives_counts s t L) as (C & D & _). unfold pool_capacity in *. lia. Qed.
Example C120_case : lives s118 (snd (execs loop_new full)) /\ count is_link_new (snd (execs loop_new full)) = 32 /\ snd (exec s118 (OLinkNew true)) = [AFail] /\
  snd (exec (fst (exec s118 (OLinkDel 5))) (OLinkNew true)) = [ALinkNew 34].
Proof. split; [exact (lives_start full)|]. split; [vm_compute; reflexivity|]. split; vm_compute; reflexivity. Qed.

(** * C116: what destroying an acceptor does *)
(** A fresh acceptor of any loop with one left: destroying it after listening failed ends the process, after listening
    succeeded it does not; this is what C116_terminates_refuted rests on. *)
Theorem C116_destroyed_partial s t h : lives s t -> snd (exec s OAccNew) = [AAccNew h] ->
  snd (execs s [OAccNew; OAccListen h false; OAccDel h]) = [AAccNew h; AFail; ATerminate] /\
  snd (execs s [OAccNew; OAccDel h]) = [AAccNew h; ATerminate] /\
  snd (execs s [OAccNew; OAccListen h true; OAccDel h]) = [AAccNew h; AAccDel h].
Proof.
  intros L E. pose proof (lives_good s t L) as (W & _). destruct (w_a s W) as (_ & B & C & _). cbn [execs].
  assert (N : forall j, a_own (e_a s j) <> Some (e_next s)) by (intros j X; apply C in X; lia).
  cbn [exec] in E |- *. destruct (e_af s) as [|i r] eqn:Ef; [discriminate|]. cbn [snd] in E. injection E as <-.
  set (s1 := bump (set_a (free_a s r) i (mkA false (Some (e_next s))))).
  assert (F : forall b : bool, find_a (if b then set_a s1 i (mkA true (Some (e_next s))) else s1) (e_next s) = Some i).
  { intros b. pose proof (find_a_spec (if b then set_a s1 i (mkA true (Some (e_next s))) else s1) (e_next s)) as P.
    assert (Ei : forall x, a_own (e_a (if b then set_a s1 i (mkA true (Some (e_next s))) else s1) x) = Some (e_next s) <-> x = i).
    { intros x. unfold s1. destruct b; cbn [bump set_a free_a e_a]; unfold fset; destruct (Nat.eqb_spec x i); cbn [a_own]; split; auto; intros X; try (now apply N in X); contradiction. }
    destruct (find_a _ _) as [x|]; [|exfalso; apply (P i); [|now apply Ei]].
    - destruct P as [_ P]. apply Ei in P. now subst.
    - apply B. try rewrite Ef. now left. }
  assert (Fi : forall f (x : acc), fset f i x i = x) by (intros f x; unfold fset; now rewrite Nat.eqb_refl).
  pose proof (F false) as F0. pose proof (F true) as F1. cbn match in F0, F1.
  assert (A0 : e_a s1 i = mkA false (Some (e_next s))) by (unfold s1; cbn [bump set_a free_a e_a]; apply Fi).
  rewrite !F0, A0. cbn [a_fd a_own negb andb]. rewrite ?F0, ?A0. cbn [a_fd snd app]. rewrite F1. cbn [set_a e_a]. rewrite Fi. cbn [a_fd snd app]. auto.
Qed.
Example C116_destroyed_case : snd (exec loop_new OAccNew) = [AAccNew 0] /\ lives loop_new [].
Proof. split; [reflexivity|constructor]. Qed.

(** * C121: timers can be created again and again *)
(** Creation fails when the timers in use and all the creations the system ever refused add up to 32. *)
Theorem C121_exact_partial s t : lives s t ->
  (snd (exec s (OTimerNew true true)) = [AFail] <-> count is_timer_new t + count is_no_timer t = 32 + count is_timer_del t).
Proof.
  intros L. destruct (lives_counts s t L) as (_ & _ & C). unfold pool_capacity in C. cbn [exec]. destruct (e_tf s) as [|i r]; cbn [length snd andb] in *; split; intros H; try discriminate; auto; lia.
Qed.
(** After 32 refusals no timer can be created although none exists, now or later. *)
Theorem C121_leak_refuted : exists s t, lives s t /\ count is_timer_new t = 0 /\ forall os, snd (exec (fst (execs s os)) (OTimerNew true true)) = [AFail].
Proof.
  exists (fst (execs loop_new (repeat (OTimerNew true false) 32))). eexists. split; [exact (lives_start (repeat (OTimerNew true false) 32))|].
  split; [vm_compute; reflexivity|]. assert (K : forall os s, e_tf s = [] -> (forall i, t_own (e_t s i) = None) -> e_tf (fst (execs s os)) = [] /\ (forall i, t_own (e_t (fst (execs s os)) i) = None)).
  { induction os as [|o r IH]; intros s E1 E2; [auto|]. cbn [execs]. assert (Q : e_tf (fst (exec s o)) = [] /\ (forall i, t_own (e_t (fst (exec s o)) i) = None)).
    { assert (N : forall h, find_t s h = None). { intros h. pose proof (find_t_spec s h) as P. destruct (find_t s h); [|reflexivity]. destruct P as [_ P]. congruence. }
      destruct o; cbn [exec].
      - rewrite E1. split; assumption.
      - rewrite N. split; assumption.
      - rewrite N. split; assumption.
      - rewrite N. split; assumption.
      - rewrite N. split; assumption.
      - destruct (e_lf s); split; assumption.
      - destruct (find_l s h); split; assumption.
      - destruct (find_l s h) as [i|]; [destruct (l_fd (e_l s i)), ok|]; split; assumption.
      - destruct (find_l s h); split; assumption.
      - destruct (find_l s h); split; assumption.
      - destruct (e_af s); split; assumption.
      - destruct (find_a s h) as [i|]; [destruct (negb (a_fd (e_a s i)) && ok)|]; split; assumption.
      - destruct (find_a s h) as [i|]; [destruct (a_fd (e_a s i))|]; split; assumption.
      - destruct (find_a s a) as [j|]; [destruct (find_l s h) as [i|]; [destruct (l_fd (e_l s i)), (a_fd (e_a s j) && ok)|]|]; split; assumption. }
    destruct Q as [Q1 Q2]. destruct (exec s o) as [s1 t1]. specialize (IH s1 Q1 Q2). destruct (execs s1 r). exact IH. }
  intros os. destruct (K os (fst (execs loop_new (repeat (OTimerNew true false) 32)))) as [E _]; [vm_compute; reflexivity|vm_compute; reflexivity|]. cbn [exec]. now rewrite E.
Qed.
Example C121_case : lives s117 (snd (execs loop_new two)) /\ count is_timer_new (snd (execs loop_new two)) = 2.
Proof. split; [exact (lives_start two)|reflexivity]. Qed.

Print Assumptions C117_timely.
Print Assumptions C117_delivered.
Print Assumptions C118_owner_partial.
Print Assumptions C118_other_owner_refuted.
Print Assumptions C118_closed_refuted.
Print Assumptions C119_accounted_partial.
Print Assumptions C119_causes_partial.
Print Assumptions C119_all_partial.
Print Assumptions C119_dropped_refuted.
Print Assumptions C120_links.
Print Assumptions C120_acceptors.
Print Assumptions C120_bounded.
Print Assumptions C116_destroyed_partial.
Print Assumptions C121_exact_partial.
Print Assumptions C121_leak_refuted.
