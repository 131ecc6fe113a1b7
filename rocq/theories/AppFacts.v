(** Further facts about the started and stopped application: no deadlock, failed listen, the Modbus component after a stop. *)
From Verif Require Import Base QueueModel MsgStorageModel ModbusCodecModel ModbusClientModel ModbusServerModel ModbusCompModel ControllerModel RoutingModel.
From Verif Require Import AppModel AppSpec AppProofs AppBound.
Local Open Scope Z_scope.

(** Running a list of events. *)
Fixpoint arun (g : list Z) (s : app) (es : list aev) : option app :=
  match es with [] => Some s | e :: r => match astep g s e with ANext s' => arun g s' r | _ => None end end.
Lemma arun_goes g : forall es s s', arun g s es = Some s' -> exists n, goes g s es n s'.
Proof.
  induction es as [|e es IH]; intros s s' H; cbn [arun] in H; [injection H as <-; exists 0%nat; constructor|].
  destruct (astep g s e) as [| | |s1] eqn:E; try discriminate H. destruct (IH s1 s' H) as [n Hn]. eexists. econstructor; eassumption.
Qed.
(** The grants of a list of events, computed. *)
Definition grantedb (s : app) (e : aev) : bool :=
  match e with
  | ACmd _ kept => kept
  | APut r kept => kept || match at_r (p_out s) r with m :: _ => negb (about_ua m) && negb (about_modbus m) | [] => true end
  | ATakeC tok => tok
  | ATakeU acc lis => acc && lis
  | _ => true
  end.
Lemma grantedb_ok s e : grantedb s e = true -> granted s e.
Proof.
  destruct e; cbn; auto; intros H.
  - apply orb_prop in H as [H|H]; [now left|right]. destruct (at_r (p_out s) r) as [|m l]; [exact I|]. apply andb_prop in H as [H1 H2]. split; now apply negb_true_iff.
  - now apply andb_prop in H.
Qed.
Fixpoint grun (g : list Z) (s : app) (es : list aev) : option app :=
  match es with [] => Some s | e :: r => if grantedb s e then match astep g s e with ANext s' => grun g s' r | _ => None end else None end.
Lemma grun_reach g : forall es s tr s', areach g s tr -> grun g s es = Some s' -> areach g s' (tr ++ es).
Proof.
  induction es as [|e es IH]; intros s tr s' R H; cbn [grun] in H; [injection H as <-; now rewrite app_nil_r|].
  destruct (grantedb s e) eqn:G; [|discriminate H]. destruct (astep g s e) as [| | |s1] eqn:E; try discriminate H.
  change (e :: es) with ([e] ++ es). rewrite app_assoc. apply (IH s1); [|exact H]. econstructor; eauto. now apply grantedb_ok.
Qed.

(** * Every message is where it can be handled *)
Definition typed (s : app) : Prop := forall r m, In m (at_r (p_q s) r) -> home m = r.
Lemma typed_step g s e s' : typed s -> astep g s e = ANext s' -> typed s'.
Proof.
  intros T H r m Hm. destruct (queue_step g s e s' r H) as [(_ & x & rest & Q1 & Q2)|(ext & Q)].
  - apply T. rewrite Q1. right. now rewrite <- Q2.
  - (* what is appended was pushed *)
    assert (P : forall x kept, p_q s' = push_msg (p_q s) x kept -> home m = r).
    { intros x kept E. rewrite E in Hm. unfold push_msg in Hm. destruct kept; [|now apply T]. destruct (home x) eqn:Eh, r; cbn [set_r at_r x_m x_u x_c] in Hm; try (apply T; exact Hm);
        (apply in_app_or in Hm as [Hm|[<-|[]]]; [apply T; exact Hm|exact Eh]). }
    assert (N : incl (at_r (p_q s') r) (at_r (p_q s) r) -> home m = r) by (intros L; apply T, L, Hm).
    assert (S1 : forall r0 x rest, at_r (p_q s) r0 = x :: rest -> incl (at_r (set_r (p_q s) r0 rest) r) (at_r (p_q s) r)).
    { intros r0 x rest E. destruct r0, r; cbn [set_r at_r x_m x_u x_c] in *; try rewrite E; intros y Hy; try exact Hy; now right. }
    destruct e as [st kept|r0 kept|tok|acc lis|e| |e]; cbn [astep] in H.
    + injection H as <-. eapply P. reflexivity.
    + destruct (at_r (p_out s) r0) as [|x rest]; [discriminate H|]. injection H as <-. eapply P. reflexivity.
    + unfold with_next in H. destruct (idle s RCtrl); [|discriminate H]. destruct (at_r (p_q s) RCtrl) as [|x rest] eqn:Eq; [discriminate H|].
      destruct (k_event tok x); [|discriminate H]. unfold k_handle in H. destruct (k_step _ _ _) as [[c os]|]; [|discriminate H]. injection H as <-. apply N. cbn [p_q]. exact (S1 _ _ _ Eq).
    + unfold with_next in H. destruct (idle s RUa); [|discriminate H]. destruct (at_r (p_q s) RUa) as [|x rest] eqn:Eq; [discriminate H|]. specialize (S1 RUa x rest Eq). unfold u_handle, u_next in H.
      destruct x as [| |e|[]|[]| | | | | |[]|[] a|[]]; try destruct (p_port s); try destruct acc, lis; cbn [negb] in H; try discriminate H; injection H as <-; apply N; cbn [p_q]; exact S1.
    + unfold with_next in H. destruct (idle s RModbus); [|discriminate H]. destruct (at_r (p_q s) RModbus) as [|x rest] eqn:Eq; [discriminate H|].
      destruct (m_event x e); [|discriminate H]. unfold m_handle in H. destruct (mb_step _ _) as [[c os]|]; [|discriminate H]. destruct (m_ends os); [discriminate H|]. injection H as <-. apply N. cbn [p_q]. exact (S1 _ _ _ Eq).
    + destruct (idle s RCtrl && _); [|discriminate H]. unfold k_handle in H. destruct (k_step _ _ _) as [[c os]|]; [|discriminate H]. injection H as <-. apply N. intros y Hy; exact Hy.
    + destruct (idle s RModbus); [|discriminate H]. destruct e; try discriminate H; unfold m_handle in H; (destruct (mb_step _ _) as [[c os]|]; [|discriminate H]; destruct (m_ends os); [discriminate H|]; injection H as <-; apply N; intros y Hy; exact Hy).
Qed.
Lemma typed_goes g s tr n s' : goes g s tr n s' -> typed s -> typed s'.
Proof. induction 1; eauto using typed_step. Qed.
Lemma typed0 : typed app0.
Proof. intros [] m []. Qed.

(** A reactor with something to do can do it (with whatever outcome). *)
Lemma same_cfgs_some xs : exists gs, same_cfgs xs gs = true.
Proof.
  induction xs as [|[[i c] a] xs [gs IH]]; [exists []; reflexivity|].
  exists (mkCfg i (if c then 1 else 0) (fun _ => 0) [] (mkReq 0 0 0 0 0 0 []) true true :: gs). cbn [same_cfgs]. rewrite IH. unfold same_cfg. cbn. rewrite !Z.eqb_refl. reflexivity.
Qed.
Lemma m_event_some m : home m = RModbus -> exists e, m_event m e = true.
Proof.
  destruct m as [| | |[]|[]| | | | | |[]|[]|[]]; cbn; intros H; try discriminate H.
  - exists (MvInit ns nc). cbn. now rewrite !Z.eqb_refl.
  - destruct (same_cfgs_some items) as [gs E]. exists (MvConfig gs). exact E.
  - exists MvRelease. reflexivity.
  - exists (MvAdu []). reflexivity.
  - exists (MvRsp server (mkReply session tid ok err nbytes data) true). cbn. rewrite !Z.eqb_refl, Bool.eqb_reflx. cbn. unfold zlist_eqb. now destruct (list_eq_dec _ _ _).
Qed.
Lemma k_event_some m : home m = RCtrl -> exists k, k_event true m = Some k.
Proof. destruct m as [| | |[]|[]| | | | | |[]|[]|[]]; cbn; intros H; try discriminate H; eauto. Qed.
Lemma u_handle_moves s m q : u_handle s m true true q <> ADisabled.
Proof. unfold u_handle, u_next. destruct m as [| |e|[]|[]| | | | | |[]|[] a|[]]; try destruct (p_port s); cbn [negb]; discriminate. Qed.
Lemma can_move g s : typed s -> in_flight s <> [] -> exists e, is_cmd e = false /\ granted s e /\ astep g s e <> ADisabled.
Proof.
  intros T H.
  assert (PUT : forall r, at_r (p_out s) r <> [] -> exists e, is_cmd e = false /\ granted s e /\ astep g s e <> ADisabled).
  { intros r Hr. exists (APut r true). split; [reflexivity|]. split; [now left|]. cbn [astep]. destruct (at_r (p_out s) r); [now destruct Hr|discriminate]. }
  destruct (x_c (p_out s)) eqn:E1; [|apply (PUT RCtrl); cbn [at_r]; rewrite E1; discriminate].
  destruct (x_u (p_out s)) eqn:E2; [|apply (PUT RUa); cbn [at_r]; rewrite E2; discriminate].
  destruct (x_m (p_out s)) eqn:E3; [|apply (PUT RModbus); cbn [at_r]; rewrite E3; discriminate].
  destruct (x_c (p_q s)) as [|m l] eqn:E4.
  - destruct (x_u (p_q s)) as [|m l] eqn:E5.
    + destruct (x_m (p_q s)) as [|m l] eqn:E6; [unfold in_flight in H; rewrite E1, E2, E3, E4, E5, E6 in H; now destruct H|].
      destruct (m_event_some m) as [e He]; [apply (T RModbus); cbn [at_r]; rewrite E6; now left|]. exists (ATakeM e). split; [reflexivity|]. split; [exact I|].
      cbn [astep]. unfold with_next, idle. cbn [at_r]. rewrite E3, E6, He. unfold m_handle. destruct (mb_step _ _) as [[b os]|]; [destruct (m_ends os)|]; discriminate.
    + exists (ATakeU true true). split; [reflexivity|]. split; [now split|]. cbn [astep]. unfold with_next, idle. cbn [at_r]. rewrite E2, E5. apply u_handle_moves.
  - destruct (k_event_some m) as [k Hk]; [apply (T RCtrl); cbn [at_r]; rewrite E4; now left|]. exists (ATakeC true). split; [reflexivity|]. split; [reflexivity|].
    cbn [astep]. unfold with_next, idle. cbn [at_r]. rewrite E1, E4, Hk. unfold k_handle. destruct (k_step _ _ _) as [[c os]|]; discriminate.
Qed.

(** * Moves of a whole history, commands included *)
Definition count (f : aev -> bool) (tr : list aev) : nat := length (filter f tr).
Lemma effort_cmd g s st kept s' : astep g s (ACmd st kept) = ANext s' -> (effort s' <= effort s + if st then 31 else 17)%nat.
Proof. cbn. intros H. injection H as <-. unfold effort. cbn [p_q p_out p_ctrl]. pose proof (load_push (p_q s) (if st then GStart else GStop) kept). destruct st; cbn [lq] in *; lia. Qed.
Lemma effort_all g s tr n s' : goes g s tr n s' ->
  (n + effort s' <= effort s + 31 * count (fun e => match e with ACmd true _ => true | _ => false end) tr + 17 * count (fun e => match e with ACmd false _ => true | _ => false end) tr)%nat.
Proof.
  unfold count. induction 1 as [s|s e s1 tr n s2 H _ IH]; [cbn; lia|]. destruct (is_cmd e) eqn:Ec.
  - destruct e as [st kept| | | | | |]; try discriminate Ec. apply effort_cmd in H. cbn [life_move filter]. destruct st; cbn [length]; lia.
  - pose proof (effort_step g s e s1 H Ec). assert (F : forall b, match e with ACmd x _ => Bool.eqb x b | _ => false end = false) by (intros b; destruct e; try reflexivity; discriminate Ec).
    cbn [filter]. assert (F1 : match e with ACmd true _ => true | _ => false end = false) by (destruct e; try reflexivity; discriminate Ec).
    assert (F2 : match e with ACmd false _ => true | _ => false end = false) by (destruct e; try reflexivity; discriminate Ec). rewrite F1, F2. lia.
Qed.

(** * A failed listen *)
Lemma broken_step g s e s' : p_port s = PBroken -> astep g s e = ANext s' -> p_port s' = PBroken.
Proof.
  intros B H. destruct e as [st kept|r0 kept|tok|acc lis|e| |e]; cbn [astep] in H.
  - injection H as <-. exact B.
  - destruct (at_r (p_out s) r0) as [|x rest]; [discriminate H|]. injection H as <-. exact B.
  - unfold with_next in H. destruct (idle s RCtrl); [|discriminate H]. destruct (at_r (p_q s) RCtrl) as [|x rest]; [discriminate H|].
    destruct (k_event tok x); [|discriminate H]. unfold k_handle in H. destruct (k_step _ _ _) as [[c os]|]; [|discriminate H]. injection H as <-. exact B.
  - unfold with_next in H. destruct (idle s RUa); [|discriminate H]. destruct (at_r (p_q s) RUa) as [|x rest]; [discriminate H|]. unfold u_handle, u_next in H. rewrite B in H.
    destruct x as [| |e|[]|[]| | | | | |[]|[] a|[]]; try destruct acc, lis; cbn [negb] in H; try discriminate H; injection H as <-; reflexivity.
  - unfold with_next in H. destruct (idle s RModbus); [|discriminate H]. destruct (at_r (p_q s) RModbus) as [|x rest]; [discriminate H|].
    destruct (m_event x e); [|discriminate H]. unfold m_handle in H. destruct (mb_step _ _) as [[c os]|]; [|discriminate H]. destruct (m_ends os); [discriminate H|]. injection H as <-. exact B.
  - destruct (idle s RCtrl && _); [|discriminate H]. unfold k_handle in H. destruct (k_step _ _ _) as [[c os]|]; [|discriminate H]. injection H as <-. exact B.
  - destruct (idle s RModbus); [|discriminate H]. destruct e; try discriminate H; unfold m_handle in H; (destruct (mb_step _ _) as [[c os]|]; [|discriminate H]; destruct (m_ends os); [discriminate H|]; injection H as <-; exact B).
Qed.
Lemma broken_goes g s tr n s' : goes g s tr n s' -> p_port s = PBroken -> p_port s' = PBroken.
Proof. induction 1; eauto using broken_step. Qed.

(** * The Modbus component after a stop *)
Definition mstream (s : app) : list amsg := x_m (p_q s) ++ x_c (p_out s).
Definition mupf (b : bool) (m : amsg) : bool := match m with GModbusInit _ _ => true | GModbusRelease => false | _ => b end.
Definition mup (s : app) : bool := match p_modbus s with Some _ => true | None => false end.
Definition plain (m : amsg) : Prop := forall b, mupf b m = b.
Record MbInv (s : app) : Prop := {
  mi_gone : k_modbus (p_ctrl s) = None -> fold_left mupf (mstream s) (mup s) = false;
  mi_outu : Forall plain (x_u (p_out s));
  mi_outm : Forall plain (x_m (p_out s))
}.
Lemma plain_other m : about_modbus m = false -> plain m.
Proof. intros H b. destruct m; cbn; try reflexivity; discriminate H. Qed.
Lemma plain_away m : home m <> RModbus -> plain m.
Proof. intros H b. destruct m; cbn; try reflexivity; now destruct H. Qed.
Lemma plain_fold ms b : Forall plain ms -> fold_left mupf ms b = b.
Proof. intros H. revert b. induction H as [|m ms H1 _ IH]; intros b; [reflexivity|]. cbn [fold_left]. now rewrite (H1 b). Qed.
Lemma mb0 : MbInv app0.
Proof. split; [reflexivity|constructor..]. Qed.
Lemma push_m q m kept : fold_left mupf (x_m (push_msg q m kept)) = fold_left mupf (x_m q) \/ (home m = RModbus /\ kept = true /\ x_m (push_msg q m kept) = x_m q ++ [m]).
Proof. unfold push_msg. destruct kept; [|now left]. destruct (home m) eqn:E; cbn [set_r x_m at_r]; auto. Qed.
Lemma push_fold q m kept (rest : list amsg) b : (kept = true \/ about_modbus m = false) ->
  fold_left mupf (x_m (push_msg q m kept) ++ rest) b = fold_left mupf (x_m q ++ m :: rest) b.
Proof.
  intros K. rewrite !fold_left_app. cbn [fold_left]. unfold push_msg. destruct kept.
  - destruct (home m) eqn:E; cbn [set_r x_m at_r].
    + now rewrite fold_left_app.
    + now rewrite (plain_away m) by (rewrite E; discriminate).
    + now rewrite (plain_away m) by (rewrite E; discriminate).
  - destruct K as [K|K]; [discriminate K|]. now rewrite (plain_other m K).
Qed.
Lemma push_plain q m kept b : plain m -> fold_left mupf (x_m (push_msg q m kept)) b = fold_left mupf (x_m q) b.
Proof. intros P. unfold push_msg. destruct kept; [|reflexivity]. destruct (home m); cbn [set_r x_m at_r]; try reflexivity. rewrite fold_left_app. cbn [fold_left]. apply P. Qed.
Lemma c_sends_plain o : Forall plain (c_sends o).
Proof. destruct o; cbn [c_sends]; repeat constructor. Qed.
Lemma s_sends_plain i o : Forall plain (s_sends i o).
Proof. destruct o; cbn [s_sends]; repeat constructor. Qed.
Lemma flat_plain {A} (f : A -> list amsg) os : (forall o, Forall plain (f o)) -> Forall plain (flat_map f os).
Proof. intros H. induction os as [|o os IH]; cbn [flat_map]; [constructor|]. apply Forall_app. auto. Qed.
Lemma m_sends_plain o : Forall plain (m_sends o).
Proof. destruct o; cbn [m_sends]; repeat constructor; apply flat_plain; intros; [apply c_sends_plain|apply s_sends_plain]. Qed.
Lemma mb_up c e c' os : mb_step c e = Some (c', os) -> m_ends os = false ->
  (match c' with Some _ => true | None => false end) = (match e with MvInit _ _ => true | MvRelease => false | _ => match c with Some _ => true | None => false end end).
Proof.
  intros H N. unfold mb_step in H.
  destruct e; (destruct (doomed c); [injection H as <- <-; discriminate N|injection H as <- <-; reflexivity]) ||
    (destruct c as [b|]; [match type of H with context[match ?x with _ => _ end] => destruct x as [[b' os']|]; [injection H as <- <-; reflexivity|discriminate H] end|injection H as <- <-; reflexivity]).
Qed.
Lemma stop_sends g c c' os : match k_modbus c with Some m => m_st m <> MConfigure | None => True end -> k_step g c KStop = Some (c', os) -> forall b, fold_left mupf (flat_map k_sends os) b = false.
Proof.
  unfold k_step. destruct (k_modbus c) as [m|]; [|discriminate]. intros Hm H b. destruct (m_step m TvStop) as [[m' o]|] eqn:E; [|discriminate H]. destruct (k_ua c); [|discriminate H]. injection H as <- <-.
  unfold m_step in E. destruct (m_st m) eqn:Em; [|now destruct Hm|..];
    unfold m_transit, m_exit in E; rewrite ?Em in E; cbn in E; injection E as <- <-; reflexivity.
Qed.
Lemma mb_inv_step g s e s' : MbInv s -> granted s e -> calm s e -> astep g s e = ANext s' -> MbInv s'.
Proof.
  intros [I1 I2 I3] G C H.
  assert (K : forall k q c os, idle s RCtrl = true -> x_m q = x_m (p_q s) -> (match k with KStart false => False | KStop => match k_modbus (p_ctrl s) with Some m => m_st m <> MConfigure | None => True end | _ => True end) ->
     k_step g (p_ctrl s) k = Some (c, os) ->
     MbInv (mkApp c (p_modbus s) (p_port s) (p_chan s) (p_svc s) q (set_r (p_out s) RCtrl (flat_map k_sends os)))).
  { intros k q c os Hi Hq Hk E. split; cbn [set_r x_u x_m p_out]; try assumption. unfold mstream, mup. cbn [p_ctrl p_q p_out p_modbus set_r x_c]. rewrite Hq. intros HN.
    unfold idle in Hi. cbn [at_r] in Hi. destruct (x_c (p_out s)) eqn:Ec; [|discriminate Hi]. unfold mstream in I1. rewrite Ec, app_nil_r in I1. rewrite fold_left_app.
    destruct k as [[]| |ev|l|]; [| | |unfold k_step in E..].
    - exfalso. unfold k_step in E. cbn [negb] in E. destruct (m_step (m_new g) TvStart) as [[m o]|]; [|discriminate E]. injection E as <- <-. discriminate HN.
    - now destruct Hk.
    - now apply (stop_sends g _ _ _ Hk E).
    - destruct (k_modbus (p_ctrl s)) eqn:Em; [destruct (m_step m ev) as [[? ?]|]; [injection E as <- <-; discriminate HN|discriminate E]|]. injection E as <- <-. cbn [flat_map fold_left]. now apply I1.
    - injection E as <- <-. destruct (k_ua (p_ctrl s)); [destruct l|]; cbn; now apply I1.
    - injection E as <- <-. cbn; now apply I1. }
  assert (M : forall ev q, idle s RModbus = true -> (fold_left mupf (x_m q) (match ev with MvInit _ _ => true | MvRelease => false | _ => mup s end) = fold_left mupf (x_m (p_q s)) (mup s)) -> forall b os,
     mb_step (p_modbus s) ev = Some (b, os) -> m_ends os = false -> MbInv (mkApp (p_ctrl s) b (p_port s) (p_chan s) (p_svc s) q (set_r (p_out s) RModbus (flat_map m_sends os)))).
  { intros ev q Hi Hq b os E N. split; cbn [set_r x_u x_m p_out]; try assumption; [|apply flat_plain, m_sends_plain]. unfold mstream, mup. cbn [p_ctrl p_q p_out p_modbus set_r x_c].
    intros HN. specialize (I1 HN). unfold mstream in I1. rewrite fold_left_app in *. rewrite (mb_up _ _ _ _ E N). unfold mup in Hq. rewrite Hq. exact I1. }
  destruct e as [st kept|r0 kept|tok|acc lis|e| |e]; cbn [astep] in H.
  - injection H as <-. split; try assumption. unfold mstream, mup in *. cbn [p_ctrl p_q p_out p_modbus]. intros HN. rewrite fold_left_app, push_plain by (intros b; destruct st; reflexivity). rewrite <- fold_left_app. auto.
  - destruct (at_r (p_out s) r0) as [|x rest] eqn:Eo; [discriminate H|]. injection H as <-. cbn [granted] in G. rewrite Eo in G.
    assert (G' : kept = true \/ about_modbus x = false) by tauto.
    destruct r0; cbn [at_r] in Eo; (split; [unfold mstream, mup in *; cbn [p_ctrl p_q p_out p_modbus set_r x_c]; intros HN|cbn [p_out set_r x_u]|cbn [p_out set_r x_m]]); try assumption.
    + rewrite Eo in I3. inversion I3. rewrite fold_left_app, push_plain by assumption. rewrite <- fold_left_app. auto.
    + rewrite Eo in I3. now inversion I3.
    + rewrite Eo in I2. inversion I2. rewrite fold_left_app, push_plain by assumption. rewrite <- fold_left_app. auto.
    + rewrite Eo in I2. now inversion I2.
    + rewrite push_fold by assumption. rewrite <- Eo. auto.
  - unfold with_next in H. destruct (idle s RCtrl) eqn:Hi; [|discriminate H]. cbn [at_r] in H. destruct (x_c (p_q s)) as [|x rest] eqn:Eq; [discriminate H|].
    destruct (k_event tok x) as [k|] eqn:Ek; [|discriminate H]. unfold k_handle in H. destruct (k_step _ _ _) as [[c os]|] eqn:E; [|discriminate H]. injection H as <-. refine (K k (set_r (p_q s) RCtrl rest) c os eq_refl eq_refl _ E).
    cbn [granted] in G. subst tok. unfold calm in C. rewrite Eq in C. destruct x; cbn in Ek; try discriminate Ek; injection Ek as <-; exact I || exact C.
  - unfold with_next in H. destruct (idle s RUa); [|discriminate H]. destruct (at_r (p_q s) RUa) as [|x rest] eqn:Eq; [discriminate H|]. unfold u_handle, u_next in H.
    destruct x as [| |e|[]|[]| | | | | |[]|[] a|[]]; try destruct (p_port s); try destruct acc, lis; cbn [negb] in H; try discriminate H; injection H as <-; (split; [exact I1|repeat constructor|exact I3]).
  - unfold with_next in H. destruct (idle s RModbus) eqn:Hi; [|discriminate H]. cbn [at_r] in H. destruct (x_m (p_q s)) as [|x rest] eqn:Eq; [discriminate H|].
    destruct (m_event x e) eqn:Ee; [|discriminate H]. unfold m_handle in H. destruct (mb_step _ _) as [[c os]|] eqn:E; [|discriminate H]. destruct (m_ends os) eqn:En; [discriminate H|]. injection H as <-.
    refine (M e (set_r (p_q s) RModbus rest) eq_refl _ c os E En). cbn [set_r x_m]. rewrite ?Eq. cbn [fold_left]. destruct x, e; cbn in Ee; try discriminate Ee; reflexivity.
  - destruct (idle s RCtrl) eqn:Hi; [|discriminate H]. destruct (k_enabled _ _); [|discriminate H]. cbn [andb] in H. unfold k_handle in H. destruct (k_step _ _ _) as [[c os]|] eqn:E; [|discriminate H]. injection H as <-.
    exact (K (KModbus TvTimer) (p_q s) c os eq_refl eq_refl I E).
  - destruct (idle s RModbus) eqn:Hi; [|discriminate H]. destruct e; try discriminate H; unfold m_handle in H; (destruct (mb_step _ _) as [[c os]|] eqn:E; [|discriminate H]; destruct (m_ends os) eqn:En; [discriminate H|]; injection H as <-);
      refine (M _ (p_q s) eq_refl _ c os E En); reflexivity.
Qed.
Lemma creach_areach g s tr : creach g s tr -> areach g s tr /\ MbInv s.
Proof. induction 1 as [|s tr e s' _ [A M] G C H]; [split; [constructor|exact mb0]|]. split; [econstructor; eauto|eauto using mb_inv_step]. Qed.
Lemma creach_gone g s tr : creach g s tr -> settled s -> last_cmd tr = Some false -> p_modbus s = None.
Proof.
  intros R S L. destruct (creach_areach g s tr R) as [A M]. pose proof (reach_inv g s tr A) as U. rewrite L in U.
  assert (US : ua_settled s) by (intros m Hm; now apply S).
  assert (Hu : k_ua (p_ctrl s) = false).
  { pose proof (ui_cmd _ _ U) as Uc. cbn [cmd_of] in Uc. rewrite <- Uc. clear Uc. symmetry. assert (Q : forall m, In m (x_c (p_q s)) -> about_ua m = false) by (intros m Hm; apply US; unfold in_flight; rewrite !in_app_iff; tauto).
    clear - Q. revert Q. generalize (k_ua (p_ctrl s)) as b. induction (x_c (p_q s)) as [|m l IH]; intros b Q; [reflexivity|]. cbn [fold_left]. rewrite IH by (intros; apply Q; now right).
    specialize (Q m (or_introl eq_refl)). destruct m; try discriminate Q; reflexivity. }
  pose proof (ui_ctrl _ _ U) as Uc. destruct (k_modbus (p_ctrl s)) eqn:Em; [rewrite Hu in Uc; discriminate Uc|].
  pose proof (mi_gone s M Em) as F. rewrite plain_fold in F.
  - unfold mup in F. now destruct (p_modbus s).
  - apply Forall_forall. intros m Hm. apply plain_other, S. unfold mstream in Hm. unfold in_flight. rewrite !in_app_iff in *. tauto.
Qed.

(** * Start-up and shut-down come to an end, whatever the environment does *)
Section Wild.
Variables (g : list Z) (st : nat -> app) (ev : nat -> option aev) (k : nat).
Hypothesis X : wild_execution g st ev.
Hypothesis Fair : fair st ev.
Hypothesis Last : forall n, (k < n)%nat -> match ev n with Some (ACmd _ _) => False | _ => True end.

Lemma wexec_work n : (k < n)%nat -> (effort (st (S n)) <= effort (st n))%nat /\ match ev n with Some e => life_move (st n) e = true -> (effort (st (S n)) < effort (st n))%nat | None => True end.
Proof.
  intros Hn. pose proof (wx_step _ _ _ X n) as E. pose proof (Last n Hn) as L. destruct (ev n) as [e|]; [|rewrite E; split; [lia|exact I]].
  assert (W := effort_step g _ _ _ E). assert (N : is_cmd e = false) by (destruct e; auto; destruct L). specialize (W N). split; [destruct (life_move (st n) e); lia|]. intros M. rewrite M in W. lia.
Qed.
Lemma wexec_mono n d : (k < n)%nat -> (effort (st (n + d)) <= effort (st n))%nat.
Proof. intros Hn. induction d as [|d IH]; [now rewrite Nat.add_0_r|]. rewrite Nat.add_succ_r. destruct (wexec_work (n + d)) as [W _]; lia. Qed.

(** A message at position [j] of a queue is handled. *)
Lemma wqueue_progress r : forall j n m, (k < n)%nat -> nth_error (at_r (p_q (st n)) r) j = Some m -> life m = true ->
  exists n', (n <= n')%nat /\ (effort (st (S n')) < effort (st n'))%nat.
Proof.
  induction j as [j IHj] using lt_wf_ind. intros n m Hn Hm Ha. destruct (Fair r n) as [(p & Hp & Hf) _]. revert n Hn Hm Hp.
  enough (D : forall d n, (p - n)%nat = d -> (k < n)%nat -> nth_error (at_r (p_q (st n)) r) j = Some m -> (n <= p)%nat -> exists n', (n <= n')%nat /\ (effort (st (S n')) < effort (st n'))%nat).
  { intros n Hn Hm Hp. now apply (D (p - n)%nat n). }
  induction d as [|d IHd]; intros n Hd Hn Hm Hp.
  - assert (n = p) by lia. subst n. destruct Hf as [Hf|Hf]; [|rewrite Hf in Hm; destruct j; discriminate Hm].
    pose proof (wx_step _ _ _ X p) as E. pose proof (wexec_work p Hn) as [_ W]. destruct (ev p) as [e|] eqn:Ee; [|destruct Hf].
    destruct (queue_step g _ _ _ r E) as [(_ & x & rest & Q1 & Q2)|(ext & Q)].
    + destruct j as [|j].
      * exists p. split; [lia|]. apply W. rewrite Q1 in Hm. injection Hm as ->. destruct e, r; try destruct Hf; cbn [life_move at_r] in *; rewrite Q1; exact Ha.
      * destruct (IHj j ltac:(lia) (S p) m) as (n' & N1 & N2); [lia|rewrite Q2; rewrite Q1 in Hm; exact Hm|exact Ha|]. exists n'. split; [lia|exact N2].
    + (* a step that takes from [r] cannot append *)
      exfalso. clear - E Hf Q Hm.
      assert (L : (length (at_r (p_q (st (S p))) r) < length (at_r (p_q (st p)) r))%nat).
      { destruct e as [| |tok|acc lis|e| |], r; try destruct Hf; cbn [astep] in E; unfold with_next in E.
        - destruct (idle (st p) RCtrl); [|discriminate E]. destruct (at_r (p_q (st p)) RCtrl) as [|x rest]; [discriminate E|]. destruct (k_event tok x); [|discriminate E]. unfold k_handle in E.
          destruct (k_step _ _ _) as [[c os]|]; [|discriminate E]. injection E as <-. cbn. lia.
        - destruct (idle (st p) RUa); [|discriminate E]. destruct (at_r (p_q (st p)) RUa) as [|x rest]; [discriminate E|]. unfold u_handle, u_next in E.
          destruct x as [| |e|[]|[]| | | | | |[]|[] a|[]]; try destruct (p_port (st p)); try destruct acc, lis; cbn [negb] in E; try discriminate E; injection E as <-; cbn; lia.
        - destruct (idle (st p) RModbus); [|discriminate E]. destruct (at_r (p_q (st p)) RModbus) as [|x rest]; [discriminate E|]. destruct (m_event x e); [|discriminate E]. unfold m_handle in E.
          destruct (mb_step _ _) as [[c os]|]; [|discriminate E]. destruct (m_ends os); [discriminate E|]. injection E as <-. cbn. lia. }
      rewrite Q, app_length in L. lia.
  - pose proof (wx_step _ _ _ X n) as E. pose proof (wexec_work n Hn) as [_ W]. destruct (ev n) as [e|] eqn:Ee.
    + destruct (queue_step g _ _ _ r E) as [(T & x & rest & Q1 & Q2)|(ext & Q)].
      * destruct j as [|j].
        -- exists n. split; [lia|]. apply W. rewrite Q1 in Hm. injection Hm as ->. destruct e, r; try destruct T; cbn [life_move at_r] in *; rewrite Q1; exact Ha.
        -- destruct (IHj j ltac:(lia) (S n) m) as (n' & N1 & N2); [lia|rewrite Q2; rewrite Q1 in Hm; exact Hm|exact Ha|]. exists n'. split; [lia|exact N2].
      * destruct (IHd (S n)) as (n' & N1 & N2); [lia|lia| |lia|exists n'; split; [lia|exact N2]]. rewrite Q, nth_error_app1; [exact Hm|]. apply nth_error_Some. congruence.
    + destruct (IHd (S n)) as (n' & N1 & N2); [lia|lia|now rewrite E|lia|exists n'; split; [lia|exact N2]].
Qed.
Lemma wout_progress r : forall j n m, (k < n)%nat -> nth_error (at_r (p_out (st n)) r) j = Some m -> life m = true ->
  exists n', (n <= n')%nat /\ (effort (st (S n')) < effort (st n'))%nat.
Proof.
  induction j as [j IHj] using lt_wf_ind. intros n m Hn Hm Ha. destruct (Fair r n) as [_ (p & Hp & Hf)]. revert n Hn Hm Hp.
  enough (D : forall d n, (p - n)%nat = d -> (k < n)%nat -> nth_error (at_r (p_out (st n)) r) j = Some m -> (n <= p)%nat -> exists n', (n <= n')%nat /\ (effort (st (S n')) < effort (st n'))%nat).
  { intros n Hn Hm Hp. now apply (D (p - n)%nat n). }
  assert (PUT : forall n e, (k < n)%nat -> nth_error (at_r (p_out (st n)) r) j = Some m -> ev n = Some e -> puts r (Some e) -> exists n', (n <= n')%nat /\ (effort (st (S n')) < effort (st n'))%nat).
  { intros n e Hn Hm Ee Hput. pose proof (wx_step _ _ _ X n) as E. pose proof (wexec_work n Hn) as [_ W]. rewrite Ee in E, W.
    destruct e as [|r0 kept| | | | |]; cbn [puts] in Hput; try contradiction. subst r0. cbn [astep] in E. destruct (at_r (p_out (st n)) r) as [|x rest] eqn:Q1; [discriminate E|].
    destruct j as [|j].
    - exists n. split; [lia|]. apply W. injection Hm as ->. cbn [life_move]. rewrite Q1. exact Ha.
    - destruct (IHj j ltac:(lia) (S n) m) as (n' & N1 & N2); [lia| |exact Ha|exists n'; split; [lia|exact N2]]. injection E as <-. cbn [p_out]. destruct r; exact Hm. }
  induction d as [|d IHd]; intros n Hd Hn Hm Hp.
  - assert (n = p) by lia. subst n. destruct Hf as [Hf|Hf]; [|rewrite Hf in Hm; destruct j; discriminate Hm].
    destruct (ev p) as [e|] eqn:Ee; [|destruct Hf]. eapply PUT; eauto.
  - pose proof (wx_step _ _ _ X n) as E. destruct (ev n) as [e|] eqn:Ee.
    + destruct (out_step g _ _ _ r E) as [(T & _)|[Q|Q]].
      * eapply PUT; eauto.
      * rewrite Q in Hm. destruct j; discriminate Hm.
      * destruct (IHd (S n)) as (n' & N1 & N2); [lia|lia|now rewrite Q|lia|exists n'; split; [lia|exact N2]].
    + destruct (IHd (S n)) as (n' & N1 & N2); [lia|lia|now rewrite E|lia|exists n'; split; [lia|exact N2]].
Qed.


Lemma wild_progress n : (k < n)%nat -> ~ settled (st n) -> exists n', (n <= n')%nat /\ (effort (st (S n')) < effort (st n'))%nat.
Proof.
  intros Hn Hs. assert (C : exists m, In m (in_flight (st n)) /\ life m = true).
  { unfold settled in Hs. induction (in_flight (st n)) as [|m l IH]; [destruct Hs; intros ? []|]. destruct (life m) eqn:El; [exists m; split; [now left|exact El]|].
    destruct IH as (x & A & B); [|exists x; split; [now right|exact B]]. intros N. apply Hs. intros x [<-|Hx]; [now apply orb_false_elim|now apply N]. }
  destruct C as (m & Hm & Hl). unfold in_flight in Hm. rewrite !in_app_iff in Hm.
  destruct Hm as [Hm|[Hm|[Hm|[Hm|[Hm|Hm]]]]]; apply In_nth_error in Hm as [j Hj].
  - exact (wqueue_progress RModbus j n m Hn Hj Hl).
  - exact (wqueue_progress RUa j n m Hn Hj Hl).
  - exact (wqueue_progress RCtrl j n m Hn Hj Hl).
  - exact (wout_progress RModbus j n m Hn Hj Hl).
  - exact (wout_progress RUa j n m Hn Hj Hl).
  - exact (wout_progress RCtrl j n m Hn Hj Hl).
Qed.
Lemma settled_dec s : settled s \/ ~ settled s.
Proof.
  unfold settled. induction (in_flight s) as [|m l [IH|IH]]; [left; intros ? []| |right; intros N; apply IH; intros; apply N; now right].
  destruct (life m) eqn:El.
  - right. intros N. destruct (N m (or_introl eq_refl)) as [A B]. unfold life in El. rewrite A, B in El. discriminate El.
  - left. intros x [<-|Hx]; [now apply orb_false_elim|now apply IH].
Qed.
Lemma wild_settles : forall w n, (k < n)%nat -> (effort (st n) <= w)%nat -> exists N, (n <= N)%nat /\ settled (st N).
Proof.
  induction w as [|w IH]; intros n Hn Hw.
  - destruct (settled_dec (st n)) as [S|S]; [exists n; auto|]. destruct (wild_progress n Hn S) as (n' & N1 & N2). replace n' with (n + (n' - n))%nat in N2 at 2 by lia. pose proof (wexec_mono n (n' - n) Hn). lia.
  - destruct (settled_dec (st n)) as [S|S]; [exists n; auto|]. destruct (wild_progress n Hn S) as (n' & N1 & N2).
    destruct (IH (Datatypes.S n')) as (N & A & B); [lia| |exists N; split; [lia|exact B]].
    replace n' with (n + (n' - n))%nat in N2 at 2 by lia. pose proof (wexec_mono n (n' - n) Hn). lia.
Qed.
End Wild.

(** * Executions made of a finite run *)
Section Tail.
Variables (g : list Z) (evs : list aev) (sf : app).
Definition tail_st (n : nat) : app := match arun g app0 (firstn n evs) with Some s => s | None => app0 end.
Definition tail_ev (n : nat) : option aev := nth_error evs n.
Hypothesis R : grun g app0 evs = Some sf.
Hypothesis Q : forall r, at_r (p_q sf) r = [] /\ at_r (p_out sf) r = [].
Lemma grun_arun : forall es s s', grun g s es = Some s' -> arun g s es = Some s'.
Proof. induction es as [|e es IH]; intros s s' H; cbn [grun arun] in *; [exact H|]. destruct (grantedb s e); [|discriminate H]. destruct (astep g s e); try discriminate H. auto. Qed.
Lemma grun_split : forall es n s s', grun g s es = Some s' -> exists s1, arun g s (firstn n es) = Some s1 /\
  match nth_error es n with Some e => grantedb s1 e = true /\ exists s2, astep g s1 e = ANext s2 /\ arun g s (firstn (S n) es) = Some s2 | None => s1 = s' end.
Proof.
  induction es as [|e es IH]; intros n s s' H; cbn [grun] in H.
  - injection H as <-. exists s. destruct n; split; reflexivity.
  - destruct (grantedb s e) eqn:G; [|discriminate H]. destruct (astep g s e) as [| | |s1] eqn:E; try discriminate H. destruct n as [|n].
    + exists s. split; [reflexivity|]. cbn [nth_error]. split; [exact G|]. exists s1. split; [exact E|]. cbn [firstn arun]. now rewrite E.
    + destruct (IH n s1 s' H) as (s2 & A & B). exists s2. cbn [firstn arun nth_error]. rewrite E. split; [exact A|]. exact B.
Qed.
Lemma tail_exec : execution g tail_st tail_ev.
Proof.
  split; [reflexivity|]. intros n. unfold tail_ev, tail_st. destruct (grun_split evs n app0 sf R) as (s1 & A & B). rewrite A. destruct (nth_error evs n) as [e|] eqn:En.
  - destruct B as [G (s2 & E & A2)]. rewrite A2. split; [exact E|now apply grantedb_ok].
  - destruct (grun_split evs (S n) app0 sf R) as (s3 & A3 & B3). rewrite A3. apply nth_error_None in En. replace (nth_error evs (S n)) with (@None aev) in B3 by (symmetry; apply nth_error_None; lia). congruence.
Qed.
Lemma tail_end n : (length evs <= n)%nat -> tail_st n = sf.
Proof. intros H. unfold tail_st. destruct (grun_split evs n app0 sf R) as (s1 & A & B). rewrite A. replace (nth_error evs n) with (@None aev) in B by (symmetry; now apply nth_error_None). exact B. Qed.
Lemma tail_fair : fair tail_st tail_ev.
Proof. intros r n. destruct (Q r) as [Q1 Q2]. split; exists (n + length evs)%nat; (split; [lia|]); right; rewrite tail_end by lia; assumption. Qed.
End Tail.

(** * Remaining present *)
Lemma quiet_mup g s e s' : life_move s e = false -> astep g s e = ANext s' -> mup s' = mup s.
Proof.
  intros L H. unfold mup. destruct e as [st kept|r0 kept|tok|acc lis|e| |e]; cbn [astep] in H.
  - injection H as <-. reflexivity.
  - destruct (at_r (p_out s) r0) as [|x rest]; [discriminate H|]. injection H as <-. reflexivity.
  - unfold with_next in H. destruct (idle s RCtrl); [|discriminate H]. destruct (at_r (p_q s) RCtrl) as [|x rest]; [discriminate H|].
    destruct (k_event tok x); [|discriminate H]. unfold k_handle in H. destruct (k_step _ _ _) as [[c os]|]; [|discriminate H]. injection H as <-. reflexivity.
  - unfold with_next in H. destruct (idle s RUa); [|discriminate H]. destruct (at_r (p_q s) RUa) as [|x rest]; [discriminate H|]. unfold u_handle, u_next in H.
    destruct x as [| |e|[]|[]| | | | | |[]|[] a|[]]; try destruct (p_port s); try destruct acc, lis; cbn [negb] in H; try discriminate H; injection H as <-; reflexivity.
  - unfold with_next in H. destruct (idle s RModbus); [|discriminate H]. cbn [at_r] in H. cbn [life_move] in L. destruct (x_m (p_q s)) as [|x rest]; [discriminate H|].
    destruct (m_event x e) eqn:Em; [|discriminate H]. unfold m_handle in H. destruct (mb_step _ _) as [[c os]|] eqn:E; [|discriminate H]. destruct (m_ends os) eqn:En; [discriminate H|]. injection H as <-. cbn [p_modbus].
    rewrite (mb_up _ _ _ _ E En). destruct x, e; try discriminate Em; try discriminate L; reflexivity.
  - destruct (idle s RCtrl && _); [|discriminate H]. unfold k_handle in H. destruct (k_step _ _ _) as [[c os]|]; [|discriminate H]. injection H as <-. reflexivity.
  - destruct (idle s RModbus); [|discriminate H]. destruct e; try discriminate H; unfold m_handle in H; (destruct (mb_step _ _) as [[c os]|] eqn:E; [|discriminate H]; destruct (m_ends os) eqn:En; [discriminate H|]; injection H as <-; cbn [p_modbus]; rewrite (mb_up _ _ _ _ E En); reflexivity).
Qed.
Lemma effort_zero s : settled s -> k_modbus (p_ctrl s) = None -> effort s = 0%nat.
Proof.
  intros S K. unfold effort, load_q, load_o, pot. rewrite K.
  assert (Z1 : forall l, (forall m, In m l -> In m (in_flight s)) -> sumw lq l = 0%nat) by (intros l Hl; apply sumw_zero; intros m Hm; apply lq_zero; destruct (S m (Hl m Hm)) as [A B]; unfold life; now rewrite A, B).
  assert (Z2 : forall l, (forall m, In m l -> In m (in_flight s)) -> sumw lo l = 0%nat) by (intros l Hl; apply sumw_zero; intros m Hm; destruct (S m (Hl m Hm)) as [A B]; unfold lo, life; now rewrite A, B).
  rewrite !Z1, !Z2; [reflexivity|..]; intros m Hm; unfold in_flight; rewrite !in_app_iff; tauto.
Qed.
Lemma quiet_goes g s tr n s' : goes g s tr n s' -> n = 0%nat -> mup s' = mup s.
Proof. induction 1 as [s|s e s1 tr n s2 H _ IH]; intros Hn; [reflexivity|]. rewrite IH by lia. eapply quiet_mup; [|exact H]. destruct (life_move s e); [discriminate Hn|reflexivity]. Qed.

(** * No failed listen *)
Definition listens (e : aev) : bool := match e with ATakeU true false => false | _ => true end.
Lemma sound_step g s e s' : p_port s <> PBroken -> listens e = true -> astep g s e = ANext s' -> p_port s' <> PBroken.
Proof.
  intros B L H. destruct e as [st kept|r0 kept|tok|acc lis|e| |e]; cbn [astep] in H.
  - injection H as <-. exact B.
  - destruct (at_r (p_out s) r0) as [|x rest]; [discriminate H|]. injection H as <-. exact B.
  - unfold with_next in H. destruct (idle s RCtrl); [|discriminate H]. destruct (at_r (p_q s) RCtrl) as [|x rest]; [discriminate H|].
    destruct (k_event tok x); [|discriminate H]. unfold k_handle in H. destruct (k_step _ _ _) as [[c os]|]; [|discriminate H]. injection H as <-. exact B.
  - unfold with_next in H. destruct (idle s RUa); [|discriminate H]. destruct (at_r (p_q s) RUa) as [|x rest]; [discriminate H|]. unfold u_handle, u_next in H.
    destruct x as [| |e|[]|[]| | | | | |[]|[] a|[]]; try destruct (p_port s); try destruct acc, lis; cbn [negb listens] in H, L; try discriminate H; try discriminate L; injection H as <-; cbn [p_port]; try discriminate; exact B.
  - unfold with_next in H. destruct (idle s RModbus); [|discriminate H]. destruct (at_r (p_q s) RModbus) as [|x rest]; [discriminate H|].
    destruct (m_event x e); [|discriminate H]. unfold m_handle in H. destruct (mb_step _ _) as [[c os]|]; [|discriminate H]. destruct (m_ends os); [discriminate H|]. injection H as <-. exact B.
  - destruct (idle s RCtrl && _); [|discriminate H]. unfold k_handle in H. destruct (k_step _ _ _) as [[c os]|]; [|discriminate H]. injection H as <-. exact B.
  - destruct (idle s RModbus); [|discriminate H]. destruct e; try discriminate H; unfold m_handle in H; (destruct (mb_step _ _) as [[c os]|]; [|discriminate H]; destruct (m_ends os); [discriminate H|]; injection H as <-; exact B).
Qed.
Lemma sound_goes g s tr n s' : goes g s tr n s' -> p_port s <> PBroken -> forallb listens tr = true -> p_port s' <> PBroken.
Proof. induction 1; intros B L; [exact B|]. cbn [forallb] in L. apply andb_prop in L as [L1 L2]. eauto using sound_step. Qed.
Lemma sound_take g s acc lis : p_port s <> PBroken -> astep g s (ATakeU acc lis) <> ATerminate /\ astep g s (ATakeU acc lis) <> AUndefined.
Proof.
  intros B. cbn [astep]. unfold with_next. destruct (idle s RUa); [|split; discriminate]. destruct (at_r (p_q s) RUa) as [|x rest]; [split; discriminate|]. unfold u_handle, u_next.
  destruct x as [| |e|[]|[]| | | | | |[]|[] a|[]]; try destruct (p_port s); try destruct acc, lis; cbn [negb]; split; try discriminate; now destruct B.
Qed.

(** The same with calm stops. *)
Definition calmb (s : app) (e : aev) : bool :=
  match e, x_c (p_q s), k_modbus (p_ctrl s) with ATakeC _, GStop :: _, Some m => negb (mst_eqb (m_st m) MConfigure) | _, _, _ => true end.
Lemma calmb_ok s e : calmb s e = true -> calm s e.
Proof.
  unfold calmb, calm. destruct e; auto. destruct (x_c (p_q s)) as [|[] ?]; auto. destruct (k_modbus (p_ctrl s)) as [m|]; auto. destruct (m_st m); cbn; intros H; try discriminate; discriminate H.
Qed.
Fixpoint crun (g : list Z) (s : app) (es : list aev) : option app :=
  match es with [] => Some s | e :: r => if grantedb s e && calmb s e then match astep g s e with ANext s' => crun g s' r | _ => None end else None end.
Lemma crun_reach g : forall es s tr s', creach g s tr -> crun g s es = Some s' -> creach g s' (tr ++ es).
Proof.
  induction es as [|e es IH]; intros s tr s' R H; cbn [crun] in H; [injection H as <-; now rewrite app_nil_r|].
  destruct (grantedb s e) eqn:G; [|discriminate H]. destruct (calmb s e) eqn:C; [|discriminate H]. cbn [andb] in H. destruct (astep g s e) as [| | |s1] eqn:E; try discriminate H.
  change (e :: es) with ([e] ++ es). rewrite app_assoc. apply (IH s1); [|exact H]. econstructor; eauto; [now apply grantedb_ok|now apply calmb_ok].
Qed.
