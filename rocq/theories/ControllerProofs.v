(** Invariants of the controller. *)
From Verif Require Import Base ModbusCodecSpec ModbusClientModel ModbusClientProofs ControllerModel ControllerSpec.
Local Open Scope Z_scope.

Definition stage_st (s : mst) : stage := match s with MInit => GInit | MConfigure => GConfig | MRun => GPoll | MSetup => GPause end.
Definition polls (s : mst) : bool := match s with MRun => true | _ => false end.
Definition pauses (s : mst) : bool := match s with MSetup => true | _ => false end.

(** The test cases as set up, up to the images; the images hold the cells. *)
Definition case_ok (g : list Z) (tr : ktrace) (i : nat) (t : tcase) : Prop :=
  nth_error (test_cases g) i = Some (set_image t g) /\ Z.of_nat (length (tc_image t)) = 2048 /\
  forall k, 0 <= k < 2048 -> nth (Z.to_nat k) (tc_image t) 0 = cell g tr (Z.of_nat i) k.
Definition cases_ok (g : list Z) (tr : ktrace) (cs : list tcase) : Prop :=
  length cs = 16%nat /\ forall i t, nth_error cs i = Some t -> case_ok g tr i t.
Definition MInv (g : list Z) (m : mtest) (tr : ktrace) : Prop :=
  stage_of tr = stage_st (m_st m) /\ m_timer m = (if pauses (m_st m) then Some runDelay else None) /\
  0 <= m_count m <= 16 /\ (m_st m = MRun -> m_count m < 16) /\ cases_ok g tr (m_cases m).
Definition counts_ok (p r : bool) (n : Z) (live : bool) (tr : ktrace) : Prop :=
  tally is_config (kouts tr) <= tally is_inited (kevs tr) /\
  tally is_new (kouts tr) = tally is_free (kouts tr) + (if live then 1 else 0) /\
  tally is_batch (kouts tr) <= tally is_configured (kevs tr) + tally is_tick (kevs tr) /\
  tally is_tick (kevs tr) + (if p then 1 else 0) <= tally is_arm (kouts tr) /\
  16 * tally is_arm (kouts tr) + (if r then n else 0) <= tally is_rsp (kevs tr).
Definition KInv (g : list Z) (c : ctrl) (tr : ktrace) : Prop :=
  match k_modbus c with
  | None => k_ua c = false /\ stage_of tr = GNone /\ counts_ok false false 0 false tr
  | Some m => k_ua c = true /\ MInv g m tr /\ counts_ok (pauses (m_st m)) (polls (m_st m)) (m_count m) true tr
  end.

(** ** Histories *)
Lemma kouts_snoc tr e os : kouts (tr ++ [(e, os)]) = kouts tr ++ os.
Proof. unfold kouts. rewrite map_app, concat_app. cbn. now rewrite app_nil_r. Qed.
Lemma kevs_snoc tr e os : kevs (tr ++ [(e, os)]) = kevs tr ++ [e].
Proof. unfold kevs. now rewrite map_app. Qed.
Lemma stage_snoc tr e os : stage_of (tr ++ [(e, os)]) = fold_left stage_next os (stage_of tr).
Proof. unfold stage_of. rewrite kouts_snoc. apply fold_left_app. Qed.
Lemma tally_app {A} (f : A -> bool) l l' : tally f (l ++ l') = tally f l + tally f l'.
Proof. unfold tally. rewrite filter_app, app_length. lia. Qed.
Lemma cell_snoc g tr x i k : cell g (tr ++ [x]) i k = cell_next g i k (cell g tr i k) x.
Proof. unfold cell. now rewrite fold_left_app. Qed.

(** ** Test cases *)
Lemma cases_len g : length (test_cases g) = 16%nat.
Proof. reflexivity. Qed.
Lemma cases_image g i t : nth_error (test_cases g) i = Some t -> set_image t g = t.
Proof.
  do 16 (destruct i as [|i]; [cbn [test_cases nth_error]; intros E; injection E as <-; reflexivity|]).
  cbn [test_cases nth_error]. destruct i; discriminate.
Qed.
Lemma cases_keep g tr cs x : (forall i k, cell_next g i k (cell g tr i k) x = cell g tr i k) -> cases_ok g tr cs -> cases_ok g (tr ++ [x]) cs.
Proof.
  intros Hx [H1 H2]. split; [exact H1|]. intros i t Ht. destruct (H2 i t Ht) as (A & B & C). split; [exact A|]. split; [exact B|].
  intros k Hk. rewrite cell_snoc, Hx. apply C, Hk.
Qed.
Lemma cases_fresh g tr os : octets2048 g -> cases_ok g (tr ++ [(KStart true, os)]) (test_cases g).
Proof.
  intros Hg. split; [reflexivity|]. intros i t Ht. pose proof (cases_image g i t Ht) as E.
  assert (I : tc_image t = g) by (rewrite <- E; reflexivity).
  split; [now rewrite E|]. rewrite I. split; [exact Hg|]. intros k Hk. rewrite cell_snoc. reflexivity.
Qed.
Lemma case_lt g tr cs i : cases_ok g tr cs -> (nth_error cs i = None <-> (16 <= i)%nat).
Proof. intros [H _]. rewrite nth_error_None. lia. Qed.

Lemma nth_skip n : forall (l : list Z) k, nth k (skipn n l) 0 = nth (n + k) l 0.
Proof. induction n; intros l k; [reflexivity|]. destruct l; cbn [skipn Nat.add nth]; [now destruct k|apply IHn]. Qed.
Lemma nth_first n : forall (l : list Z) k, (k < n)%nat -> nth k (firstn n l) 0 = nth k l 0.
Proof. induction n; intros l k H; [lia|]. destruct l; [reflexivity|]. destruct k; cbn [firstn nth]; [reflexivity|apply IHn; lia]. Qed.
Lemma part_spec v off n : 0 <= off -> 0 <= n ->
  part v off n = if (off <? Z.of_nat (length v)) && (off + n <=? Z.of_nat (length v)) then Some (map (fun j => nth (Z.to_nat off + j) v 0) (seq 0 (Z.to_nat n))) else None.
Proof.
  intros H1 H2. unfold part. destruct ((off <? _) && (off + n <=? _)) eqn:E; [|reflexivity]. f_equal.
  apply andb_true_iff in E as [_ E]. apply Z.leb_le in E.
  apply nth_ext with (d := 0) (d' := nth (Z.to_nat off + 0) v 0).
  - rewrite map_length, seq_length, firstn_length, skipn_length. lia.
  - rewrite firstn_length, skipn_length. intros j Hj. rewrite nth_first by lia. rewrite nth_skip.
    rewrite map_nth with (f := fun j => nth (Z.to_nat off + j) v 0). now rewrite seq_nth by lia.
Qed.
Lemma part_cells g tr i t off n : case_ok g tr i t -> 0 <= off -> 0 <= n ->
  part (tc_image t) off n = if (off <? 2048) && (off + n <=? 2048) then Some (cells g tr (Z.of_nat i) off n) else None.
Proof.
  intros (_ & L & C) H1 H2. rewrite part_spec, L by assumption. destruct ((off <? 2048) && (off + n <=? 2048)) eqn:E; [|reflexivity].
  f_equal. unfold cells. apply map_ext_in. intros j Hj. apply in_seq in Hj. apply andb_true_iff in E as [_ E]. apply Z.leb_le in E.
  rewrite <- C by lia. f_equal. lia.
Qed.
Lemma nth_bw v off d k : (off + length d <= length v)%nat ->
  nth k (buf_write v off d) 0 = if (off <=? k)%nat && (k <? off + length d)%nat then nth (k - off) d 0 else nth k v 0.
Proof.
  intros H. unfold buf_write. destruct (off <=? k)%nat eqn:E1.
  - apply Nat.leb_le in E1. rewrite app_nth2 by (rewrite firstn_length; lia). rewrite firstn_length, Nat.min_l by lia.
    destruct (k <? off + length d)%nat eqn:E2; cbn [andb].
    + apply Nat.ltb_lt in E2. rewrite app_nth1 by lia. reflexivity.
    + apply Nat.ltb_ge in E2. rewrite app_nth2 by lia. rewrite nth_skip. f_equal. lia.
  - apply Nat.leb_gt in E1. cbn [andb]. rewrite app_nth1 by (rewrite firstn_length; lia). apply nth_first. lia.
Qed.

(** ** Serving *)
Lemma is_read_b f : is_reg_read f = true <-> is_read f.
Proof. unfold is_reg_read, is_read. lia. Qed.
Lemma is_write_b f : is_writeb f = true <-> is_write f.
Proof. unfold is_writeb, is_write. lia. Qed.
Lemma u16_bound z : 0 <= u16 z < 65536.
Proof. unfold u16. lia. Qed.

(** Exactly the requests that fit are served. *)
Lemma serve_defined g tr m q : cases_ok g tr (m_cases m) -> mreq_ok q -> (m_serve m q = None <-> ~ fits q).
Proof.
  intros Hc (T1 & T2 & T3 & T4 & T5). unfold is_u16 in *. unfold m_serve. destruct (nth_error (m_cases m) (Z.to_nat (a_tid q))) as [t|] eqn:Et.
  2:{ apply (case_lt g tr _ _ Hc) in Et. split; [|reflexivity]. intros _ [F _]. lia. }
  assert (Hi : ~ (16 <= Z.to_nat (a_tid q))%nat) by (rewrite <- (case_lt g tr _ _ Hc), Et; discriminate).
  destruct Hc as [Hl Hc]. specialize (Hc _ _ Et). unfold replyRoom.
  destruct (is_reg_read (a_func q)) eqn:Er.
  - apply is_read_b in Er. pose proof (u16_bound (a_num q * 2)) as Hu.
    rewrite (part_cells _ _ _ _ _ _ Hc) by lia. unfold fits, u16 in *.
    assert (Hw : ~ is_write (a_func q)) by (unfold is_read, is_write in *; lia).
    destruct (4070 <? (a_num q * 2) mod 65536) eqn:E1.
    + split; [|reflexivity]. intros _ (F1 & F2 & _). specialize (F2 Er). lia.
    + destruct ((a_start q * 2 <? 2048) && (a_start q * 2 + (a_num q * 2) mod 65536 <=? 2048)) eqn:E2.
      * split; [discriminate|]. intros F. exfalso. apply F. split; [lia|]. split; [|tauto]. intros _. clear - E2. lia.
      * split; [|reflexivity]. intros _ (F1 & F2 & _). specialize (F2 Er). clear - F2 E2. lia.
  - assert (Hr : ~ is_read (a_func q)) by (rewrite <- is_read_b, Er; discriminate).
    change ((a_func q =? 6) || (a_func q =? 16)) with (is_writeb (a_func q)).
    destruct (is_writeb (a_func q)) eqn:Ew.
    + apply is_write_b in Ew.
      assert (Z.of_nat (length (firstn (Z.to_nat (a_nbytes q)) (a_data q))) = a_nbytes q) as Hd by (rewrite firstn_length; lia).
      destruct (Hc) as (_ & L & _). unfold image_put. rewrite L, Hd.
      destruct ((Z.of_nat (length (a_data q)) <? a_nbytes q) || ((a_func q =? 6) && (4070 <? a_nbytes q))) eqn:E1.
      * split; [|reflexivity]. intros _ (F1 & _ & F2). specialize (F2 Ew). clear - E1 F2 T5 T2. lia.
      * destruct ((a_start q * 2 <? 2048) && (a_start q * 2 + a_nbytes q <=? 2048)) eqn:E2.
        -- split; [discriminate|]. intros F. exfalso. apply F. split; [lia|]. split; [tauto|]. intros _. clear - E2. lia.
        -- split; [|reflexivity]. intros _ (F1 & _ & F2). specialize (F2 Ew). clear - F2 E2. lia.
    + assert (Hw : ~ is_write (a_func q)) by (rewrite <- is_write_b, Ew; discriminate).
      split; [discriminate|]. intros F. exfalso. apply F. split; [lia|]. tauto.
Qed.

Definition reply_of (g : list Z) (tr : ktrace) (q : mreq) (o : kout) : Prop :=
  exists t, nth_error (test_cases g) (Z.to_nat (a_tid q)) = Some t /\
  o = KoReply (a_server q) (a_session q) (a_tid q) (tc_ok t) (tc_err t)
        (if is_reg_read (a_func q) then u16 (a_num q * 2) else if a_func q =? 6 then a_nbytes q else 0)
        (if is_reg_read (a_func q) then cells g tr (a_tid q) (a_start q * 2) (u16 (a_num q * 2))
         else if a_func q =? 6 then firstn (Z.to_nat (a_nbytes q)) (a_data q) else []).

Lemma serve_spec g tr m q m' os : cases_ok g tr (m_cases m) -> mreq_ok q -> m_serve m q = Some (m', os) ->
  (exists o, os = [o] /\ reply_of g tr q o) /\ m_st m' = m_st m /\ m_timer m' = m_timer m /\ m_count m' = m_count m /\
  cases_ok g (tr ++ [(KModbus (TvReq q), os)]) (m_cases m').
Proof.
  intros Hc (T1 & T2 & T3 & T4 & T5) H. unfold is_u16 in *. pose proof Hc as [Hl Hc']. unfold m_serve in H.
  destruct (nth_error (m_cases m) (Z.to_nat (a_tid q))) as [t|] eqn:Et; [|discriminate H].
  pose proof (Hc' _ _ Et) as Ht. pose proof Ht as (A & L & C). rewrite Z2Nat.id in C by lia.
  assert (Keep : forall o, is_writeb (a_func q) = false -> cases_ok g (tr ++ [(KModbus (TvReq q), [o])]) (m_cases m)).
  { intros o Ew. apply cases_keep; [|exact Hc]. intros i k. cbn [cell_next]. now rewrite Ew. }
  destruct (is_reg_read (a_func q)) eqn:Er.
  - destruct (replyRoom <? u16 (a_num q * 2)); [discriminate H|].
    rewrite (part_cells _ _ _ _ _ _ Ht) in H by (try apply u16_bound; lia). rewrite Z2Nat.id in H by lia.
    destruct (_ && _); [|discriminate H]. injection H as <- <-.
    split; [|do 3 (split; [reflexivity|]); apply Keep; unfold is_reg_read, is_writeb in *; lia].
    eexists. split; [reflexivity|]. exists (set_image t g). split; [exact A|]. rewrite Er. reflexivity.
  - change ((a_func q =? 6) || (a_func q =? 16)) with (is_writeb (a_func q)) in H.
    destruct (is_writeb (a_func q)) eqn:Ew.
    + destruct (_ || _); [discriminate H|]. unfold image_put in H.
      set (d := firstn (Z.to_nat (a_nbytes q)) (a_data q)) in *.
      assert (Hd : Z.of_nat (length d) = a_nbytes q) by (unfold d; rewrite firstn_length; lia).
      destruct (_ && _) eqn:Eb; [|discriminate H]. injection H as <- <-. rewrite L, Hd in Eb.
      split.
      { eexists. split; [reflexivity|]. exists (set_image t g). split; [exact A|]. rewrite Er. fold d. cbn [set_image tc_ok tc_err].
        destruct (a_func q =? 6); reflexivity. }
      do 3 (split; [reflexivity|]). cbn [n_cases m_cases]. split; [now rewrite upd_length|].
      intros j u Hu. destruct (Nat.eq_dec j (Z.to_nat (a_tid q))) as [->|Hj].
      * rewrite nth_error_upd_eq in Hu by (apply nth_error_Some; rewrite Et; discriminate). injection Hu as <-.
        split; [exact A|]. cbn [set_image tc_image]. split; [rewrite bw_length by lia; exact L|].
        intros k Hk. rewrite cell_snoc, Z2Nat.id by lia. cbn [cell_next]. rewrite Ew, Z.eqb_refl. cbn [andb].
        rewrite nth_bw by lia.
        destruct ((a_start q * 2 <=? k) && (k <? a_start q * 2 + a_nbytes q)) eqn:Ek.
        -- replace ((Z.to_nat (a_start q * 2) <=? Z.to_nat k)%nat && (Z.to_nat k <? Z.to_nat (a_start q * 2) + length d)%nat) with true by (clear - Ek Hd Hk T2; lia).
           unfold d. rewrite nth_first by (clear - Ek Hk T2; lia). f_equal. clear - Ek Hk T2. lia.
        -- replace ((Z.to_nat (a_start q * 2) <=? Z.to_nat k)%nat && (Z.to_nat k <? Z.to_nat (a_start q * 2) + length d)%nat) with false by (clear - Ek Hd Hk T2; lia).
           apply C, Hk.
      * rewrite nth_error_upd_neq in Hu by congruence. destruct (Hc' _ _ Hu) as (A' & L' & C'). split; [exact A'|]. split; [exact L'|].
        intros k Hk. rewrite cell_snoc. cbn [cell_next]. replace (a_tid q =? Z.of_nat j) with false by lia. rewrite andb_false_r. cbn [andb]. apply C', Hk.
    + injection H as <- <-. split; [|do 3 (split; [reflexivity|]); apply Keep; reflexivity].
      eexists. split; [reflexivity|]. exists (set_image t g). split; [exact A|]. rewrite Er.
      replace (a_func q =? 6) with false by (unfold is_writeb in Ew; lia). reflexivity.
Qed.

(** ** Checking responses *)
Lemma zlist_eqb_eq a b : zlist_eqb a b = true <-> a = b.
Proof. unfold zlist_eqb. destruct (list_eq_dec Z.eq_dec a b); split; congruence. Qed.
Lemma same_write_ne t : tc_write t <> [] ->
  same_write t = match part (tc_image t) (tc_start t * 2) (Z.of_nat (length (tc_write t))) with Some d => Some (zlist_eqb (tc_write t) d) | None => None end.
Proof. intros H. unfold same_write. destruct (tc_write t); [contradiction|reflexivity]. Qed.

Definition answers (t : tcase) (r : crsp) : Prop := tc_client t = r_client r /\ tc_ok t = r_ok r /\ tc_err t = r_err r.
Definition answersb (t : tcase) (r : crsp) : bool := (tc_client t =? r_client r) && Bool.eqb (tc_ok t) (r_ok r) && (tc_err t =? r_err r).
Lemma answers_b t r : answersb t r = true <-> answers t r.
Proof. unfold answersb, answers. rewrite !andb_true_iff, !Z.eqb_eq, eqb_true_iff. tauto. Qed.
Lemma check_head t r : m_check t r =
  if answersb t r then
    if r_ok r && (r_err r =? 0) then
      if is_reg_read (tc_func t) then
        if negb (tc_num t * 2 =? r_nbytes r) then Some false
        else match part (tc_image t) (tc_start t * 2) (tc_num t * 2) with
             | Some d => Some (zlist_eqb (firstn (Z.to_nat (tc_num t * 2)) (r_data r)) d)
             | None => None
             end
      else if tc_func t =? 6 then if negb (2 =? r_nbytes r) then Some false else same_write t
      else if tc_func t =? 16 then if negb (0 =? r_nbytes r) then Some false else same_write t
      else Some false
    else Some true
  else Some false.
Proof.
  unfold m_check, answersb. destruct (tc_client t =? r_client r); cbn [negb andb]; [|reflexivity].
  destruct (Bool.eqb (tc_ok t) (r_ok r)); cbn [negb andb]; [|reflexivity]. destruct (tc_err t =? r_err r); reflexivity.
Qed.
Lemma check_plain t r : tc_ok t = false \/ tc_err t <> 0 -> m_check t r = Some (answersb t r).
Proof.
  intros H. rewrite check_head. destruct (answersb t r) eqn:E; [|reflexivity]. apply answers_b in E as (_ & E2 & E3).
  replace (r_ok r && (r_err r =? 0)) with false; [reflexivity|]. rewrite <- E2, <- E3. destruct H as [->|H]; [reflexivity|].
  replace (tc_err t =? 0) with false by lia. now rewrite andb_false_r.
Qed.
Lemma check_read g tr i t r : case_ok g tr i t -> tc_ok t = true -> tc_err t = 0 -> is_reg_read (tc_func t) = true ->
  0 <= tc_num t -> 0 <= tc_start t -> tc_start t * 2 < 2048 -> tc_start t * 2 + tc_num t * 2 <= 2048 ->
  exists b, m_check t r = Some b /\
    (b = true <-> answers t r /\ r_nbytes r = tc_num t * 2 /\ firstn (Z.to_nat (tc_num t * 2)) (r_data r) = cells g tr (Z.of_nat i) (tc_start t * 2) (tc_num t * 2)).
Proof.
  intros Hc H1 H2 H3 H4 H5 H6 H7. rewrite check_head, H3. rewrite (part_cells _ _ _ _ _ _ Hc) by lia.
  replace ((tc_start t * 2 <? 2048) && (tc_start t * 2 + tc_num t * 2 <=? 2048)) with true by lia.
  destruct (answersb t r) eqn:E.
  2:{ exists false. split; [reflexivity|]. split; [discriminate|]. intros [A _]. apply answers_b in A. congruence. }
  apply answers_b in E. pose proof E as (E1 & E2 & E3). rewrite <- E2, <- E3, H1, H2. change (true && (0 =? 0)) with true. cbv iota.
  destruct (tc_num t * 2 =? r_nbytes r) eqn:En; cbn [negb].
  - apply Z.eqb_eq in En. eexists. split; [reflexivity|]. rewrite zlist_eqb_eq. split; [intros Hz; split; [exact E|]; split; [congruence|exact Hz]|tauto].
  - exists false. split; [reflexivity|]. split; [discriminate|]. intros (_ & A & _). apply Z.eqb_neq in En. congruence.
Qed.
Lemma check_write g tr i t r : case_ok g tr i t -> tc_ok t = true -> tc_err t = 0 -> is_writeb (tc_func t) = true ->
  tc_write t <> [] -> 0 <= tc_start t -> tc_start t * 2 < 2048 -> tc_start t * 2 + Z.of_nat (length (tc_write t)) <= 2048 ->
  exists b, m_check t r = Some b /\
    (b = true <-> answers t r /\ r_nbytes r = (if tc_func t =? 6 then 2 else 0) /\
      cells g tr (Z.of_nat i) (tc_start t * 2) (Z.of_nat (length (tc_write t))) = tc_write t).
Proof.
  intros Hc H1 H2 H3 H4 H5 H6 H7. rewrite check_head.
  replace (is_reg_read (tc_func t)) with false by (unfold is_writeb, is_reg_read in *; lia).
  rewrite same_write_ne by assumption. rewrite (part_cells _ _ _ _ _ _ Hc) by lia.
  replace ((tc_start t * 2 <? 2048) && (tc_start t * 2 + Z.of_nat (length (tc_write t)) <=? 2048)) with true by lia.
  destruct (answersb t r) eqn:E.
  2:{ exists false. split; [reflexivity|]. split; [discriminate|]. intros [A _]. apply answers_b in A. congruence. }
  apply answers_b in E. pose proof E as (E1 & E2 & E3). rewrite <- E2, <- E3, H1, H2. change (true && (0 =? 0)) with true. cbv iota.
  assert (W : forall k, (exists b, (if negb (k =? r_nbytes r) then Some false else
      Some (zlist_eqb (tc_write t) (cells g tr (Z.of_nat i) (tc_start t * 2) (Z.of_nat (length (tc_write t)))))) = Some b /\
     (b = true <-> answers t r /\ r_nbytes r = k /\ cells g tr (Z.of_nat i) (tc_start t * 2) (Z.of_nat (length (tc_write t))) = tc_write t))).
  { intros k. destruct (k =? r_nbytes r) eqn:En; cbn [negb].
    - apply Z.eqb_eq in En. eexists. split; [reflexivity|]. rewrite zlist_eqb_eq. split; [intros Hz; split; [exact E|]; split; congruence|].
      intros (_ & _ & A). congruence.
    - exists false. split; [reflexivity|]. split; [discriminate|]. intros (_ & A & _). apply Z.eqb_neq in En. congruence. }
  destruct (tc_func t =? 6) eqn:E6; [apply W|]. replace (tc_func t =? 16) with true by (unfold is_writeb in H3; lia). apply W.
Qed.

Lemma case_eq g tr i t T : case_ok g tr i t -> nth_error (test_cases g) i = Some T ->
  tc_client t = tc_client T /\ tc_func t = tc_func T /\ tc_start t = tc_start T /\ tc_num t = tc_num T /\ tc_write t = tc_write T /\
  tc_err t = tc_err T /\ tc_ok t = tc_ok T.
Proof.
  intros (A & _ & _) E. rewrite E in A. apply (f_equal (fun o => match o with Some x => x | None => t end)) in A. cbv beta iota in A.
  rewrite A. repeat split.
Qed.
(** The check of a response is that it is good. *)
Lemma check_good g tr t r : octets2048 g -> crsp_ok r -> r_tid r < 16 -> case_ok g tr (Z.to_nat (r_tid r)) t ->
  exists b, m_check t r = Some b /\ (b = true <-> good g tr r).
Proof.
  intros Hg (Hr & _) Hi Hc. remember (r_tid r) as i eqn:Ei. unfold octets2048 in Hg.
  assert (Cases : i = 0 \/ i = 1 \/ i = 2 \/ i = 3 \/ i = 4 \/ i = 5 \/ i = 6 \/ i = 7 \/ i = 8 \/ i = 9 \/ i = 10 \/ i = 11 \/ i = 12 \/ i = 13 \/ i = 14 \/ i = 15) by lia.
  assert (Plain : forall T, nth_error (test_cases g) (Z.to_nat i) = Some T -> (tc_ok T = false \/ tc_err T <> 0) ->
     (exists n, expected i = (tc_client T, tc_ok T, tc_err T, n)) -> exists b, m_check t r = Some b /\ (b = true <-> good g tr r)).
  { intros T ET HT (n & EX). destruct (case_eq _ _ _ _ _ Hc ET) as (F1 & F2 & F3 & F4 & F5 & F6 & F7). exists (answersb t r). split; [apply check_plain; rewrite F6, F7; exact HT|].
    rewrite answers_b. unfold good. rewrite <- Ei. unfold answers.
    rewrite F1, F6, F7. split.
    - intros (A & B & C). exists n. split; [congruence|]. intros D1 D2. exfalso. destruct HT; congruence.
    - intros (n' & A & _). rewrite EX in A. injection A as A B C _. tauto. }
  assert (Rd : forall T off, nth_error (test_cases g) (Z.to_nat i) = Some T -> tc_ok T = true -> tc_err T = 0 -> tc_func T = 4 ->
     0 <= tc_num T -> 0 <= tc_start T -> tc_start T * 2 < 2048 -> tc_start T * 2 + tc_num T * 2 <= 2048 -> off = tc_start T * 2 ->
     expected i = (tc_client T, true, 0, tc_num T * 2) -> read_at i = Some off -> write_at i = None ->
     exists b, m_check t r = Some b /\ (b = true <-> good g tr r)).
  { intros T off ET T1 T2 T3 T4 T5 T6 T7 T8 EX RA WA. destruct (case_eq _ _ _ _ _ Hc ET) as (F1 & F2 & F3 & F4 & F5 & F6 & F7).
    destruct (check_read g tr _ t r Hc) as (b & B1 & B2); rewrite ?F2, ?F3, ?F4, ?F5, ?F6, ?F7; try assumption; [now rewrite T3|].
    exists b. split; [exact B1|]. rewrite B2. unfold good. rewrite <- Ei. unfold answers. rewrite Z2Nat.id by lia.
    rewrite F1, F3, F4, F6, F7, T1, T2. subst off. rewrite EX, RA, WA. split.
    - intros ((A & B & C) & D & E). exists (tc_num T * 2). split; [congruence|]. intros _ _. split; [exact D|]. split; [|discriminate]. intros off F. injection F as <-. exact E.
    - intros (n & A & B). injection A as A1 A2 A3 <-. split; [tauto|]. destruct B as (B1' & B2' & _); [congruence..|]. split; [exact B1'|]. apply B2'. reflexivity. }
  assert (Wr : forall T off w n, nth_error (test_cases g) (Z.to_nat i) = Some T -> tc_ok T = true -> tc_err T = 0 -> is_writeb (tc_func T) = true ->
     tc_write T = firstn w g -> (0 < w)%nat -> 0 <= tc_start T -> tc_start T * 2 < 2048 -> tc_start T * 2 + Z.of_nat w <= 2048 -> off = tc_start T * 2 ->
     expected i = (tc_client T, true, 0, n) -> n = (if tc_func T =? 6 then 2 else 0) -> read_at i = None -> write_at i = Some (off, Z.of_nat w) ->
     exists b, m_check t r = Some b /\ (b = true <-> good g tr r)).
  { intros T off w n ET T1 T2 T3 T4 T4' T5 T6 T7 T8 EX HN RA WA. destruct (case_eq _ _ _ _ _ Hc ET) as (F1 & F2 & F3 & F4 & F5 & F6 & F7).
    assert (Lw : length (tc_write T) = w) by (rewrite T4, firstn_length; lia).
    destruct (check_write g tr _ t r Hc) as (b & B1 & B2); rewrite ?F2, ?F3, ?F4, ?F5, ?F6, ?F7; try assumption.
    { intros E0. rewrite E0 in Lw. cbn in Lw. lia. }
    { rewrite Lw. lia. }
    exists b. split; [exact B1|]. rewrite B2. unfold good. rewrite <- Ei. unfold answers. rewrite Z2Nat.id by lia.
    rewrite F1, F2, F3, F5, F6, F7, Lw, T1, T2, T4. rewrite <- HN. subst off. rewrite EX, RA, WA. split.
    - intros ((A & B & C) & D & E). exists n. split; [congruence|]. intros _ _. split; [exact D|]. split; [discriminate|]. intros off k F. injection F as <- <-. rewrite Nat2Z.id. exact E.
    - intros (n' & A & B). injection A as A1 A2 A3 <-. split; [tauto|]. destruct B as (B1' & _ & B2'); [congruence..|]. split; [exact B1'|].
      rewrite (B2' _ _ eq_refl), Nat2Z.id. reflexivity. }
  repeat (destruct Cases as [Cases|Cases]); subst i; rewrite Cases in *.
  - refine (Wr _ 1780 240%nat 0 eq_refl eq_refl eq_refl eq_refl eq_refl _ _ _ _ eq_refl eq_refl eq_refl eq_refl eq_refl); cbn [write_many tc_start]; lia.
  - refine (Plain _ eq_refl (or_introl eq_refl) (ex_intro _ _ eq_refl)).
  - refine (Plain _ eq_refl (or_intror _) (ex_intro _ _ eq_refl)). discriminate.
  - refine (Rd _ 1780 eq_refl eq_refl eq_refl eq_refl _ _ _ _ eq_refl eq_refl eq_refl eq_refl); cbn [read_regs tc_num tc_start]; lia.
  - refine (Wr _ 380 2%nat 2 eq_refl eq_refl eq_refl eq_refl eq_refl _ _ _ _ eq_refl eq_refl eq_refl eq_refl eq_refl); cbn [write_one tc_start]; lia.
  - refine (Plain _ eq_refl (or_introl eq_refl) (ex_intro _ _ eq_refl)).
  - refine (Plain _ eq_refl (or_introl eq_refl) (ex_intro _ _ eq_refl)).
  - refine (Wr _ 1780 240%nat 0 eq_refl eq_refl eq_refl eq_refl eq_refl _ _ _ _ eq_refl eq_refl eq_refl eq_refl eq_refl); cbn [write_many tc_start]; lia.
  - refine (Wr _ 512 2%nat 0 eq_refl eq_refl eq_refl eq_refl eq_refl _ _ _ _ eq_refl eq_refl eq_refl eq_refl eq_refl); cbn [write_many tc_start]; lia.
  - refine (Plain _ eq_refl (or_introl eq_refl) (ex_intro _ _ eq_refl)).
  - refine (Rd _ 20 eq_refl eq_refl eq_refl eq_refl _ _ _ _ eq_refl eq_refl eq_refl eq_refl); cbn [read_regs tc_num tc_start]; lia.
  - refine (Rd _ 0 eq_refl eq_refl eq_refl eq_refl _ _ _ _ eq_refl eq_refl eq_refl eq_refl); cbn [read_regs tc_num tc_start]; lia.
  - refine (Plain _ eq_refl (or_introl eq_refl) (ex_intro _ _ eq_refl)).
  - refine (Plain _ eq_refl (or_introl eq_refl) (ex_intro _ _ eq_refl)).
  - refine (Plain _ eq_refl (or_introl eq_refl) (ex_intro _ _ eq_refl)).
  - refine (Plain _ eq_refl (or_introl eq_refl) (ex_intro _ _ eq_refl)).
Qed.

(** ** One message *)
Lemma process_spec g tr m r : octets2048 g -> crsp_ok r -> cases_ok g tr (m_cases m) -> 0 <= m_count m < 16 ->
  (m_process m r = None <-> 16 <= r_tid r) /\
  forall m' res, m_process m r = Some (m', res) ->
    m' = n_count m (m_count m + 1) /\ r_tid r < 16 /\
    (good g tr r -> res = if m_count m + 1 =? 16 then MrDone else MrNoerror) /\ (~ good g tr r -> res = MrError) /\
    (res = MrDone -> m_count m + 1 = 16) /\ (res = MrNoerror -> m_count m + 1 < 16).
Proof.
  intros Hg Hr Hc Hn. pose proof Hr as (T & _). unfold m_process. pose proof Hc as [Hl Hc'].
  destruct (nth_error (m_cases m) (Z.to_nat (r_tid r))) as [t|] eqn:Et.
  2:{ apply (case_lt g tr _ _ Hc) in Et. split; [|discriminate]. split; [lia|reflexivity]. }
  assert (Hi : r_tid r < 16).
  { assert (~ (16 <= Z.to_nat (r_tid r))%nat) by (rewrite <- (case_lt g tr _ _ Hc), Et; discriminate). lia. }
  destruct (check_good g tr t r Hg Hr Hi (Hc' _ _ Et)) as (b & B1 & B2). rewrite B1.
  assert (U : u32 (m_count m + 1) = m_count m + 1) by (unfold u32; lia). rewrite U, Hl. cbn [n_count m_count]. change (Z.of_nat 16) with 16.
  destruct b.
  - split; [split; [discriminate|lia]|]. intros m' res H. injection H as <- <-. split; [reflexivity|]. split; [exact Hi|].
    split; [reflexivity|]. split; [intros N; exfalso; apply N, B2; reflexivity|].
    destruct (m_count m + 1 =? 16) eqn:E; (split; [|]); intros D; try discriminate D; lia.
  - split; [split; [discriminate|lia]|]. intros m' res H. injection H as <- <-. split; [reflexivity|]. split; [exact Hi|].
    split; [intros N; apply B2 in N; discriminate N|]. split; [reflexivity|]. split; discriminate.
Qed.

Ltac kcount := unfold counts_ok in *; rewrite ?kouts_snoc, ?kevs_snoc, ?tally_app in *;
  cbn [tally filter length Z.of_nat is_config is_inited is_new is_free is_batch is_configured is_tick is_arm is_rsp app] in *;
  unfold tally in *; cbn [filter length Z.of_nat is_config is_inited is_new is_free is_batch is_configured is_tick is_arm is_rsp app] in *.

Lemma keep_cell g tr e os i k : (match e with KStart true => False | KModbus (TvReq _) => os = [] | _ => True end) ->
  cell_next g i k (cell g tr i k) (e, os) = cell g tr i k.
Proof.
  destruct e as [[]| |v|l|]; cbn [cell_next]; try reflexivity; [tauto|]. destruct v; try reflexivity. now intros ->.
Qed.

Lemma transit_spec m st : m_st m <> st ->
  m_transit m st = let o1 := if pauses (m_st m) then [KoDisarm] else [] in
  (mkMt st (if pauses st then Some runDelay else if pauses (m_st m) then None else m_timer m) (if polls st then 0 else m_count m) (m_cases m),
   o1 ++ [match st with MInit => KoModbusRelease | MConfigure => KoModbusConfig config_items | MRun => KoBatch (case_items 0 (m_cases m)) | MSetup => KoArm runDelay end]).
Proof. intros H. destruct m as [s t n cs], s, st; cbn in H; try congruence; reflexivity. Qed.

Lemma m_step_inv g m tr e m' os : octets2048 g -> MInv g m tr -> counts_ok (pauses (m_st m)) (polls (m_st m)) (m_count m) true tr ->
  msg_ok (KModbus e) -> (e = TvTimer -> m_timer m <> None) -> m_step m e = Some (m', os) ->
  MInv g m' (tr ++ [(KModbus e, os)]) /\ counts_ok (pauses (m_st m')) (polls (m_st m')) (m_count m') true (tr ++ [(KModbus e, os)]).
Proof.
  intros Hg (I1 & I2 & I3 & I4 & I5) C (Hk & He) Ht H.
  assert (Same : m_step m e = Some (m, []) -> m' = m /\ os = [] -> e <> TvTimer -> MInv g m (tr ++ [(KModbus e, [])]) /\
       counts_ok (pauses (m_st m)) (polls (m_st m)) (m_count m) true (tr ++ [(KModbus e, [])])).
  { intros _ _ Ne. split.
    - unfold MInv. rewrite stage_snoc. cbn [fold_left]. do 4 (split; [assumption|]). apply cases_keep; [|exact I5]. intros i k. apply keep_cell. destruct e; auto.
    - destruct e; try congruence; kcount; repeat split; try lia. }
  destruct e; try (exfalso; exact Hk); cbn [m_step] in H.
  - (* init *) destruct (m_st m) eqn:Es; try (injection H as <- <-; rewrite ?Es; apply Same; [cbn [m_step]; rewrite ?Es; reflexivity|auto|discriminate]).
    rewrite transit_spec in H by (rewrite Es; discriminate). rewrite Es in H. cbn [pauses polls app] in H. injection H as <- <-.
    cbn [pauses polls] in *. split.
    + unfold MInv. rewrite stage_snoc. cbn [fold_left stage_next m_st m_timer m_count m_cases stage_st pauses]. split; [reflexivity|]. split; [exact I2|]. split; [exact I3|].
      split; [discriminate|]. apply cases_keep; [|exact I5]. intros i k. now apply keep_cell.
    + cbn [m_st pauses polls m_count]. kcount. repeat split; lia.
  - (* release rsp *) destruct (m_st m) eqn:Es; (injection H as <- <-; rewrite ?Es; apply Same; [cbn [m_step]; rewrite ?Es; reflexivity|auto|discriminate]).
  - (* config rsp *) destruct (m_st m) eqn:Es; try (injection H as <- <-; rewrite ?Es; apply Same; [cbn [m_step]; rewrite ?Es; reflexivity|auto|discriminate]).
    rewrite transit_spec in H by (rewrite Es; discriminate). rewrite Es in H. cbn [pauses polls app] in H. injection H as <- <-.
    cbn [pauses polls] in *. split.
    + unfold MInv. rewrite stage_snoc. cbn [fold_left stage_next m_st m_timer m_count m_cases stage_st pauses]. split; [reflexivity|]. split; [exact I2|]. split; [lia|].
      split; [lia|]. apply cases_keep; [|exact I5]. intros i k. now apply keep_cell.
    + cbn [m_st pauses polls m_count]. kcount. repeat split; lia.
  - (* response *) cbn [msg_ok] in He. destruct (m_st m) eqn:Es; try (injection H as <- <-; rewrite ?Es; apply Same; [cbn [m_step]; rewrite ?Es; reflexivity|auto|discriminate]).
    specialize (I4 eq_refl). destruct (process_spec g tr m r Hg He I5 (conj (proj1 I3) I4)) as (_ & P). cbn [pauses polls] in *.
    destruct (m_process m r) as [[m1 res]|]; [|discriminate H]. destruct (P m1 res eq_refl) as (E1 & Ei & P1 & P2 & P3 & P4). subst m1.
    destruct res.
    + injection H as <- <-. cbn [n_count m_st m_count m_cases m_timer]. rewrite Es. cbn [pauses polls]. specialize (P4 eq_refl). split.
      * unfold MInv. rewrite stage_snoc. cbn [fold_left n_count m_st m_count m_cases m_timer]. rewrite Es. cbn [stage_st pauses]. split; [exact I1|]. split; [exact I2|]. split; [lia|]. split; [lia|].
        apply cases_keep; [|exact I5]. intros i k. now apply keep_cell.
      * kcount. repeat split; lia.
    + specialize (P3 eq_refl). rewrite transit_spec in H by (cbn [n_count m_st]; rewrite Es; discriminate). cbn [n_count m_st m_count m_cases m_timer] in H. rewrite Es in H. cbn [pauses polls app] in H. injection H as <- <-. split.
      * unfold MInv. rewrite stage_snoc. cbn [fold_left stage_next m_st m_timer m_count m_cases stage_st pauses]. split; [reflexivity|]. split; [reflexivity|]. split; [lia|]. split; [discriminate|].
        apply cases_keep; [|exact I5]. intros i k. now apply keep_cell.
      * cbn [m_st pauses polls m_count]. kcount. repeat split; lia.
    + rewrite transit_spec in H by (cbn [n_count m_st]; rewrite Es; discriminate). cbn [n_count m_st m_count m_cases m_timer] in H. rewrite Es in H. cbn [pauses polls app] in H. injection H as <- <-. split.
      * unfold MInv. rewrite stage_snoc. cbn [fold_left stage_next m_st m_timer m_count m_cases stage_st pauses]. split; [reflexivity|]. split; [exact I2|]. split; [lia|]. split; [discriminate|].
        apply cases_keep; [|exact I5]. intros i k. now apply keep_cell.
      * cbn [m_st pauses polls m_count]. kcount. repeat split; lia.
  - (* request *) cbn [msg_ok] in He. destruct (m_st m) eqn:Es; try (injection H as <- <-; rewrite ?Es; apply Same; [cbn [m_step]; rewrite ?Es; reflexivity|auto|discriminate]).
    destruct (serve_spec g tr m q m' os I5 He H) as ((o & -> & (t & _ & ->)) & E1 & E2 & E3 & E4). split.
    + unfold MInv. rewrite stage_snoc. cbn [fold_left stage_next]. rewrite E1, E2, E3, Es. auto.
    + rewrite E1, E3, Es. kcount. repeat split; lia.
  - (* timer *) specialize (Ht eq_refl). destruct (m_st m) eqn:Es; cbn [pauses] in I2; try congruence.
    rewrite transit_spec in H by (cbn [n_timer m_st]; rewrite Es; discriminate). cbn [n_timer m_st m_count m_cases m_timer] in H. rewrite Es in H. cbn [pauses polls app] in H. injection H as <- <-. split.
    + unfold MInv. rewrite stage_snoc. cbn [fold_left stage_next m_st m_timer m_count m_cases stage_st pauses]. split; [reflexivity|]. split; [reflexivity|]. split; [lia|]. split; [lia|].
      apply cases_keep; [|exact I5]. intros i k. now apply keep_cell.
    + cbn [m_st pauses polls m_count] in *. kcount. repeat split; lia.
Qed.

Lemma k_step_inv g c tr e c' os : octets2048 g -> KInv g c tr -> msg_ok e -> k_enabled c e = true -> k_step g c e = Some (c', os) ->
  KInv g c' (tr ++ [(e, os)]).
Proof.
  intros Hg I He En H. unfold KInv in I. destruct e as [tok| |e|l|]; cbn [k_step] in H.
  - destruct tok; cbn [negb] in H.
    + cbn [m_step m_new m_st] in H. injection H as <- <-. unfold KInv. cbn [k_modbus k_ua]. split; [reflexivity|]. destruct (k_modbus c) as [m|].
      * destruct I as (I1 & (I2 & I3 & I4 & I5 & I6) & C). split.
        -- unfold MInv. rewrite stage_snoc. cbn [app ua_start fold_left stage_next m_new m_st m_timer m_count m_cases stage_st pauses].
           split; [reflexivity|]. split; [reflexivity|]. split; [lia|]. split; [lia|]. apply cases_fresh, Hg.
        -- cbn [m_new m_st m_count pauses polls]. unfold counts_ok in *. unfold ua_start. kcount.
           destruct (polls (m_st m)), (pauses (m_st m)); repeat split; lia.
      * destruct I as (I1 & I2 & C). split.
        -- unfold MInv. rewrite stage_snoc. cbn [app ua_start fold_left stage_next m_new m_st m_timer m_count m_cases stage_st pauses].
           split; [reflexivity|]. split; [reflexivity|]. split; [lia|]. split; [lia|]. apply cases_fresh, Hg.
        -- cbn [m_new m_st m_count pauses polls]. unfold ua_start. kcount. repeat split; lia.
    + injection H as <- <-. unfold KInv. destruct (k_modbus c) as [m|].
      * destruct I as (I1 & (I2 & I3 & I4 & I5 & I6) & C). split; [exact I1|]. split.
        -- unfold MInv. rewrite stage_snoc. cbn [fold_left stage_next]. do 4 (split; [assumption|]). apply cases_keep; [|exact I6]. intros i k. now apply keep_cell.
        -- kcount. repeat split; lia.
      * destruct I as (I1 & I2 & C). split; [exact I1|]. rewrite stage_snoc. split; [exact I2|]. kcount. repeat split; lia.
  - destruct (k_modbus c) as [m|]; [|discriminate H]. destruct I as (I1 & (I2 & I3 & I4 & I5 & I6) & C). rewrite I1 in H.
    unfold KInv. destruct (m_st m) eqn:Es; cbn [m_step] in H; rewrite Es in H; try rewrite transit_spec in H by (rewrite Es; discriminate); rewrite ?Es in H;
      cbn [pauses polls app] in H; injection H as <- <-; cbn [k_modbus k_ua]; (split; [reflexivity|]);
      rewrite stage_snoc; unfold ua_stop; cbn [app fold_left stage_next]; (split; [reflexivity|]); cbn [pauses polls] in *; kcount; repeat split; lia.
  - destruct (k_modbus c) as [m|] eqn:Em.
    + destruct I as (I1 & I2 & C). destruct (m_step m e) as [[m' o]|] eqn:Es; [|discriminate H]. injection H as <- <-.
      unfold KInv. cbn [k_modbus k_ua]. split; [exact I1|]. apply (m_step_inv g m tr e m' o Hg I2 C He); [|exact Es].
      intros ->. cbn [k_enabled] in En. rewrite Em in En. destruct (m_timer m); [discriminate|discriminate En].
    + injection H as <- <-. unfold KInv. rewrite Em. destruct I as (I1 & I2 & C). split; [exact I1|]. rewrite stage_snoc. split; [exact I2|].
      destruct e; cbn [k_enabled] in En; rewrite ?Em in En; try discriminate En; kcount; repeat split; lia.
  - injection H as <- <-. unfold KInv. destruct (k_modbus c) as [m|].
    + destruct I as (I1 & (I2 & I3 & I4 & I5 & I6) & C). rewrite I1. split; [reflexivity|]. split.
      * unfold MInv. rewrite stage_snoc. unfold ua_inited. cbn [fold_left stage_next]. do 4 (split; [assumption|]). apply cases_keep; [|exact I6]. intros i k. now apply keep_cell.
      * unfold ua_inited. kcount. repeat split; lia.
    + destruct I as (I1 & I2 & C). rewrite I1. split; [reflexivity|]. rewrite stage_snoc. split; [exact I2|]. kcount. repeat split; lia.
  - injection H as <- <-. unfold KInv. destruct (k_modbus c) as [m|].
    + destruct I as (I1 & (I2 & I3 & I4 & I5 & I6) & C). split; [exact I1|]. split.
      * unfold MInv. rewrite stage_snoc. cbn [fold_left]. do 4 (split; [assumption|]). apply cases_keep; [|exact I6]. intros i k. now apply keep_cell.
      * kcount. repeat split; lia.
    + destruct I as (I1 & I2 & C). split; [exact I1|]. rewrite stage_snoc. split; [exact I2|]. kcount. repeat split; lia.
Qed.
Lemma kreach_inv g c tr : octets2048 g -> kreach g c tr -> KInv g c tr.
Proof.
  intros Hg H. induction H as [|c tr e c' os H IH He En Hs].
  - unfold KInv. cbn. split; [reflexivity|]. split; [reflexivity|]. unfold counts_ok. cbn. repeat split; lia.
  - exact (k_step_inv g c tr e c' os Hg IH He En Hs).
Qed.
