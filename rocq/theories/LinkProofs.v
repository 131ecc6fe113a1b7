From Verif Require Import Base LinkModel LinkSpec.
Local Open Scope Z_scope.

Lemma zremove_in f x l : NoDup l -> (In x (zremove f l) <-> In x l /\ x <> f).
Proof.
  induction l as [|y l IH]; intros Hnd; cbn; [tauto|].
  inversion Hnd as [|? ? Hn Hnd']; subst. destruct (Z.eqb_spec y f) as [->|Hne].
  - split.
    + intros Hx. split; [auto|]. intros ->. contradiction.
    + intros [[->|Hx] Hne]; [congruence|auto].
  - cbn. rewrite (IH Hnd'). intuition congruence.
Qed.

Lemma zremove_nodup f l : NoDup l -> NoDup (zremove f l).
Proof.
  induction l as [|y l IH]; intros Hnd; cbn; [constructor|].
  inversion Hnd as [|? ? Hn Hnd']; subst. destruct (Z.eqb_spec y f); [auto|].
  constructor; auto. rewrite zremove_in by auto. tauto.
Qed.

(** World invariant: the open descriptors are exactly those held by links,
    each by one link. *)
Record WInv (open : list Z) (w : world) : Prop := mkWInv {
  wi_nodup : NoDup open;
  wi_range : forall i, l_fd (w i) = -1 \/ 0 <= l_fd (w i);
  wi_open : forall f, In f open <-> 0 <= f /\ exists i, l_fd (w i) = f;
  wi_inj : forall i j, l_fd (w i) = l_fd (w j) -> 0 <= l_fd (w i) -> i = j
}.

Lemma w_set_same w i l : w_set w i l i = l.
Proof. unfold w_set. now rewrite Nat.eqb_refl. Qed.
Lemma w_set_other w i l j : j <> i -> w_set w i l j = w j.
Proof. intros H. unfold w_set. destruct (Nat.eqb_spec j i); congruence. Qed.

Lemma winv_keep open w i l : WInv open w -> l_fd l = l_fd (w i) -> WInv open (w_set w i l).
Proof.
  intros [Hn Hr Ho Hi] He.
  assert (G : forall j, l_fd (w_set w i l j) = l_fd (w j)).
  { intros j. unfold w_set. destruct (Nat.eqb_spec j i); congruence. }
  constructor; auto.
  - intros j. rewrite G. auto.
  - intros f. rewrite (Ho f). split; intros [H1 [j Hj]]; split; auto; exists j; rewrite G in *; auto.
  - intros a b. rewrite !G. auto.
Qed.

Lemma winv_open open w i l f : WInv open w -> l_fd (w i) = -1 -> 0 <= f -> ~ In f open -> l_fd l = f ->
  WInv (f :: open) (w_set w i l).
Proof.
  intros [Hn Hr Ho Hi] He Hf Hnin Hl.
  assert (G : forall j, j <> i -> l_fd (w_set w i l j) = l_fd (w j)) by (intros; now rewrite w_set_other).
  assert (Gi : l_fd (w_set w i l i) = f) by (now rewrite w_set_same).
  assert (Hno : forall j, l_fd (w j) <> f) by (intros j Hj; apply Hnin, Ho; eauto).
  constructor.
  - constructor; auto.
  - intros j. destruct (Nat.eq_dec j i) as [->|Hj]; [rewrite Gi; auto|rewrite G by auto; auto].
  - intros x. cbn. rewrite (Ho x). split.
    + intros [<-|[H1 [j Hj]]]; [split; [auto|exists i; auto]|].
      split; auto. exists j. rewrite G; [auto|]. intros ->. lia.
    + intros [H1 [j Hj]]. destruct (Nat.eq_dec j i) as [->|Hji]; [left; congruence|].
      right. rewrite G in Hj by auto. eauto.
  - intros a b. destruct (Nat.eq_dec a i) as [->|Ha]; destruct (Nat.eq_dec b i) as [->|Hb]; auto.
    + rewrite Gi, G by auto. intros E. exfalso. apply (Hno b). auto.
    + rewrite Gi, G by auto. intros E. exfalso. apply (Hno a). auto.
    + rewrite !G by auto. auto.
Qed.

Lemma winv_close open w i l : WInv open w -> 0 <= l_fd (w i) -> l_fd l = -1 ->
  In (l_fd (w i)) open /\ WInv (zremove (l_fd (w i)) open) (w_set w i l).
Proof.
  intros [Hn Hr Ho Hi] He Hl. split; [apply Ho; eauto|].
  assert (G : forall j, j <> i -> l_fd (w_set w i l j) = l_fd (w j)) by (intros; now rewrite w_set_other).
  assert (Gi : l_fd (w_set w i l i) = -1) by (now rewrite w_set_same).
  constructor.
  - now apply zremove_nodup.
  - intros j. destruct (Nat.eq_dec j i) as [->|Hj]; [rewrite Gi; auto|rewrite G by auto; auto].
  - intros x. rewrite zremove_in by auto. rewrite (Ho x). split.
    + intros [[H1 [j Hj]] Hx]. split; auto. exists j. rewrite G; auto. intros ->. congruence.
    + intros [H1 [j Hj]]. destruct (Nat.eq_dec j i) as [->|Hji]; [lia|].
      rewrite G in Hj by auto. split; [eauto|]. intros ->.
      apply Hji. apply Hi; [auto|lia].
  - intros a b. destruct (Nat.eq_dec a i) as [->|Ha]; destruct (Nat.eq_dec b i) as [->|Hb]; auto.
    + rewrite Gi. intros _ H1. lia.
    + rewrite Gi, G by auto. intros E H1. lia.
    + rewrite !G by auto. auto.
Qed.

Lemma disciplined_app tr1 : forall open tr2,
  disciplined open tr1 -> (kernel_ok open tr1 -> disciplined (open_after open tr1) tr2) ->
  disciplined open (tr1 ++ tr2).
Proof.
  induction tr1 as [|e tr1 IH]; intros open tr2 H1 H2; cbn in *; [auto|].
  destruct e; cbn in *.
  - intros Hf Hn. apply IH; auto.
  - destruct H1; split; auto.
  - destruct H1; split; auto.
Qed.

Lemma open_after_app tr1 : forall open tr2, open_after open (tr1 ++ tr2) = open_after (open_after open tr1) tr2.
Proof. induction tr1 as [|[] tr1 IH]; intros; cbn; auto. Qed.
Lemma kernel_ok_app tr1 : forall open tr2, kernel_ok open (tr1 ++ tr2) <->
  kernel_ok open tr1 /\ kernel_ok (open_after open tr1) tr2.
Proof.
  induction tr1 as [|[] tr1 IH]; intros; cbn; [tauto|..]; rewrite IH; tauto.
Qed.

Lemma zremove_cons f l : zremove f (f :: l) = l.
Proof. cbn. now rewrite Z.eqb_refl. Qed.

Lemma link_step_inv open w i o :
  WInv open w -> accept_clean (w i) o -> event_clean (w i) o ->
  let '(l', ev, _) := link_step (w i) o in
  disciplined open ev /\ (kernel_ok open ev -> WInv (open_after open ev) (w_set w i l')).
Proof.
  intros HI Ha He. pose proof (wi_range _ _ HI i) as Hr.
  assert (Hheld : 0 <= l_fd (w i) -> In (l_fd (w i)) open) by (intros; apply (wi_open _ _ HI); eauto).
  assert (Hclose : forall ev0 h,
    (ev0 = [] \/ ev0 = [KUse (l_fd (w i))]) ->
    0 <= l_fd (w i) ->
    disciplined open (ev0 ++ [KUse (l_fd (w i)); KClose (l_fd (w i))]) /\
    (kernel_ok open (ev0 ++ [KUse (l_fd (w i)); KClose (l_fd (w i))]) ->
     WInv (open_after open (ev0 ++ [KUse (l_fd (w i)); KClose (l_fd (w i))])) (w_set w i (mkLink (-1) h)))).
  { intros ev0 h Hev Hp. destruct (winv_close open w i (mkLink (-1) h) HI Hp eq_refl) as [Hin HW].
    destruct Hev as [-> | ->]; cbn; auto 10. }
  destruct o as [sock fc co ep|fd fc ep| | |b|wr|rd|events mo]; cbn [link_step].
  - destruct (Z.eqb_spec (l_fd (w i)) (-1)) as [E|E]; cbn [negb].
    2:{ cbn. split; [auto|]. intros _. now apply winv_keep. }
    assert (HK : forall h, WInv open (w_set w i (mkLink (-1) h))) by (intros; apply winv_keep; cbn; auto).
    destruct (Z.eqb_spec sock (-1)).
    + cbn. split; auto.
    + destruct fc; cbn [negb].
      2:{ cbn. rewrite Z.eqb_refl. split; auto. }
      destruct co; cbn [negb].
      2:{ cbn. rewrite Z.eqb_refl. split; auto 10. }
      destruct ep; cbn [negb].
      2:{ cbn. rewrite Z.eqb_refl. split; auto 10. }
      cbn. split; [auto 10|]. intros (Hf & Hn & _). eapply winv_open; eauto.
  - cbn in Ha. destruct (Z.eqb_spec fd (-1)) as [E|E].
    + cbn. split; auto. intros _. now apply winv_keep.
    + destruct fc; cbn [negb].
      2:{ cbn. rewrite Z.eqb_refl. split; auto. intros _. now apply winv_keep. }
      destruct Ha as [Ha|[Ha|[Ha1 ->]]]; [contradiction|discriminate|].
      rewrite Ha1. cbn [negb Z.eqb]. cbn. split; [auto 10|]. intros (Hf & Hn & _). eapply winv_open; eauto.
  - unfold link_close. destruct (Z.eqb_spec (l_fd (w i)) (-1)).
    + cbn. split; auto. intros _. now apply winv_keep.
    + apply (Hclose [] (l_handler (w i))); [auto|lia].
  - unfold link_close. destruct (Z.eqb_spec (l_fd (w i)) (-1)).
    + cbn. split; auto. intros _. now apply winv_keep.
    + cbn [l_fd]. apply (Hclose [] false); [auto|lia].
  - cbn. split; auto. intros _. now apply winv_keep.
  - destruct (Z.eqb_spec (l_fd (w i)) (-1)); cbn; (split; [auto|]).
    + intros _. now apply winv_keep.
    + split; auto. apply Hheld; lia.
    + intros _. now apply winv_keep.
  - destruct (Z.eqb_spec (l_fd (w i)) (-1)); cbn.
    + split; auto. intros _. now apply winv_keep.
    + split; [split; auto; apply Hheld; lia|]. intros _. now apply winv_keep.
  - cbn in He. destruct (l_handler (w i)); cbn [negb].
    2:{ cbn. split; auto. intros _. now apply winv_keep. }
    destruct (events =? EPOLLIN).
    { cbn. split; auto. intros _. now apply winv_keep. }
    unfold link_close. destruct (Z.eqb_spec (l_fd (w i)) (-1)); [contradiction|].
    destruct (events =? EPOLLOUT).
    + destruct mo.
      * cbn. split; [split; auto; apply Hheld; lia|]. intros _. now apply winv_keep.
      * apply (Hclose [KUse (l_fd (w i))] (l_handler (w i))); [auto|lia].
    + apply (Hclose [] (l_handler (w i))); [auto|lia].
Qed.

Lemma w_run_inv ops : forall open w, WInv open w -> clean w ops ->
  disciplined open (snd (w_run w ops)) /\
  (kernel_ok open (snd (w_run w ops)) ->
   WInv (open_after open (snd (w_run w ops))) (fst (w_run w ops))).
Proof.
  induction ops as [|[i o] ops IH]; intros open w HI Hc; cbn [w_run].
  - cbn. auto.
  - cbn [clean] in Hc. destruct Hc as (Ha & He & Hc).
    pose proof (link_step_inv open w i o HI Ha He) as P.
    destruct (link_step (w i) o) as [[l' ev] ret]. cbn [fst] in Hc. destruct P as [P1 P2].
    destruct (w_run (w_set w i l') ops) as [w' evs] eqn:E. cbn [fst snd].
    split.
    + apply disciplined_app; auto. intros Hk. specialize (IH _ _ (P2 Hk) Hc). rewrite E in IH. apply IH.
    + intros Hk. apply kernel_ok_app in Hk as [Hk1 Hk2]. rewrite open_after_app.
      specialize (IH _ _ (P2 Hk1) Hc). rewrite E in IH. now apply IH.
Qed.

Lemma winv_new : WInv [] w_new.
Proof.
  constructor; cbn; auto.
  - constructor.
  - intros f. split; [tauto|]. intros [H1 [i Hi]]. lia.
  - intros i j _ H. lia.
Qed.

Lemma links_disciplined ops : clean w_new ops -> disciplined [] (snd (w_run w_new ops)).
Proof. intros Hc. apply (w_run_inv ops [] w_new winv_new Hc). Qed.

Lemma links_no_leak ops : clean w_new ops -> kernel_ok [] (snd (w_run w_new ops)) ->
  forall f, In f (open_after [] (snd (w_run w_new ops))) <->
            0 <= f /\ exists i, l_fd (fst (w_run w_new ops) i) = f.
Proof. intros Hc Hk. apply (w_run_inv ops [] w_new winv_new Hc). exact Hk. Qed.

Lemma release_closes l : l_fd l <> -1 ->
  link_step l LRelease = (mkLink (-1) false, [KUse (l_fd l); KClose (l_fd l)], RetUnit) /\
  forall h, link_step (mkLink (-1) h) LClose = (mkLink (-1) h, [], RetUnit).
Proof.
  intros H. cbn. unfold link_close. destruct (Z.eqb_spec (l_fd l) (-1)); [contradiction|]. cbn. auto.
Qed.
