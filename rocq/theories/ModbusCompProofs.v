(** Proofs about the batch layout and the Modbus component. *)
From Verif Require Import Base QueueModel PoolModel MsgStorageModel ModbusCodecModel ModbusCodecSpec ModbusClientModel ModbusStoreProofs ModbusClientSpec ModbusClientProofs ModbusClientRuns ModbusClientFacts ModbusServerModel ModbusServerSpec ModbusCompModel ModbusCompSpec.
Local Open Scope Z_scope.

(** * Octet access *)
Lemma land_16 v : 0 <= v -> Z.land v (Z.lnot 15) = 16 * (v / 16).
Proof.
  intros H. rewrite <- Z.ldiff_land. change 15 with (Z.ones 4). rewrite Z.ldiff_ones_r by lia.
  rewrite Z.shiftl_mul_pow2, Z.shiftr_div_pow2 by lia. change (2 ^ 4) with 16. lia.
Qed.
Lemma stride_room n : 0 <= n < 65536 -> stride n = 16 * ((20 + n + 15) / 16).
Proof.
  intros H. unfold stride, memAlign, itemSize, u64. rewrite land_16 by (apply Z.mod_pos_bound; lia).
  rewrite (Z.mod_small (20 + n)) by lia. rewrite Z.mod_small by lia. reflexivity.
Qed.
Lemma stride_item it : item_ok it -> Z.to_nat (stride (q_nbytes (i_req it))) = room it.
Proof.
  intros (_ & Hr & E). rewrite stride_room by apply Hr. unfold room. rewrite E. lia.
Qed.
Lemma room_pos it : (32 <= room it)%nat /\ (20 + length (q_data (i_req it)) <= room it)%nat.
Proof. unfold room. lia. Qed.

Lemma put_spec m off bs m' : put m off bs = Some m' ->
  (off + length bs <= length m)%nat /\ m' = firstn off m ++ bs ++ skipn (off + length bs) m.
Proof. unfold put. destruct (Nat.leb_spec (off + length bs) (length m)); [|discriminate]. intros [= <-]. auto. Qed.
Lemma put_ok m off bs : (off + length bs <= length m)%nat -> exists m', put m off bs = Some m' /\ length m' = length m.
Proof.
  intros H. unfold put. destruct (Nat.leb_spec (off + length bs) (length m)); [|lia]. eexists. split; [reflexivity|].
  rewrite !app_length, firstn_length, skipn_length. lia.
Qed.
Lemma put_length m off bs m' : put m off bs = Some m' -> length m' = length m.
Proof. intros H. apply put_spec in H as [H ->]. rewrite !app_length, firstn_length, skipn_length. lia. Qed.

Lemma slice_put_same m off bs m' : put m off bs = Some m' -> slice (length bs) m' off = Some bs.
Proof.
  intros H. pose proof (put_length _ _ _ _ H) as L. apply put_spec in H as [H E]. unfold slice. rewrite L.
  destruct (Nat.leb_spec (off + length bs) (length m)); [|lia]. f_equal. rewrite E.
  rewrite skipn_app, skipn_all2 by (rewrite firstn_length; lia). rewrite firstn_length. replace (off - Nat.min off (length m))%nat with 0%nat by lia.
  cbn [app skipn]. now rewrite firstn_app, firstn_all, Nat.sub_diag, firstn_O, app_nil_r.
Qed.
Lemma slice_put_before m off bs m' n o : put m off bs = Some m' -> (o + n <= off)%nat -> slice n m' o = slice n m o.
Proof.
  intros H Hn. pose proof (put_length _ _ _ _ H) as L. apply put_spec in H as [H E]. unfold slice. rewrite L.
  destruct (Nat.leb_spec (o + n) (length m)); [|reflexivity]. f_equal. rewrite E.
  rewrite skipn_app, firstn_app, skipn_length, firstn_length. replace (n - (Nat.min off (length m) - o))%nat with 0%nat by lia.
  rewrite firstn_O, app_nil_r. rewrite skipn_firstn_comm, firstn_firstn. f_equal. lia.
Qed.
Lemma slice_put_after m off bs m' n o : put m off bs = Some m' -> (off + length bs <= o)%nat -> slice n m' o = slice n m o.
Proof.
  intros H Hn. pose proof (put_length _ _ _ _ H) as L. apply put_spec in H as [H E]. unfold slice. rewrite L.
  destruct (Nat.leb_spec (o + n) (length m)); [|reflexivity]. f_equal. f_equal. rewrite E.
  rewrite skipn_app, (skipn_all2 (firstn off m)) by (rewrite firstn_length; lia). rewrite firstn_length. cbn [app].
  rewrite skipn_app, (skipn_all2 bs) by lia. cbn [app]. rewrite skipn_skipn. f_equal. lia.
Qed.
Lemma load_slice n m o : load n m o = option_map le_val (slice n m o).
Proof. unfold load, slice. destruct (_ <=? _)%nat; reflexivity. Qed.
Lemma slice_prefix n m m' o k : firstn k m' = firstn k m -> (o + n <= k)%nat -> (k <= length m)%nat -> slice n m' o = slice n m o.
Proof.
  intros E H Hk. assert (L : (k <= length m')%nat).
  { assert (X := f_equal (@length _) E). rewrite !firstn_length in X. lia. }
  unfold slice. destruct (Nat.leb_spec (o + n) (length m)), (Nat.leb_spec (o + n) (length m')); try lia. f_equal.
  rewrite <- (firstn_skipn k m), <- (firstn_skipn k m'), E.
  rewrite !skipn_app, !firstn_app, !skipn_length, !firstn_length.
  replace (n - (Nat.min k (length m) - o))%nat with 0%nat by lia.
  replace (n - (Nat.min k (length m') - o))%nat with 0%nat by lia. rewrite !firstn_O. reflexivity.
Qed.

(** * One item *)
Definition at_item (m : list Z) (off : nat) (it : item) : Prop :=
  slice 4 m off = Some (le_bytes 4 (i_client it)) /\ slice 4 m (off + 4) = Some (le_bytes 4 (q_tid (i_req it))) /\
  slice 1 m (off + 8) = Some (le_bytes 1 (q_func (i_req it))) /\ slice 2 m (off + 10) = Some (le_bytes 2 (q_addr (i_req it))) /\
  slice 2 m (off + 12) = Some (le_bytes 2 (q_start (i_req it))) /\ slice 2 m (off + 14) = Some (le_bytes 2 (q_nitems (i_req it))) /\
  slice 2 m (off + 16) = Some (le_bytes 2 (q_nbytes (i_req it))) /\
  slice (length (q_data (i_req it))) m (off + 18) = Some (q_data (i_req it)).

Lemma le_val_small n z : 0 <= z < 256 ^ Z.of_nat n -> le_val (le_bytes n z) = z.
Proof. intros H. rewrite le_val_bytes. now apply Z.mod_small. Qed.

Lemma at_nbytes m off it : item_ok it -> at_item m off it -> load 2 m (off + 16) = Some (q_nbytes (i_req it)).
Proof.
  intros (_ & Hr & _) A. rewrite load_slice. destruct A as (_ & _ & _ & _ & _ & _ & A & _). rewrite A. cbn [option_map].
  rewrite le_val_small; [reflexivity|]. cbn. apply Hr.
Qed.
Lemma at_read m off it : item_ok it -> at_item m off it -> rd_item m off = Some it.
Proof.
  intros (Hc & Hr & E) (A0 & A1 & A2 & A3 & A4 & A5 & A6 & A7). unfold rd_item.
  rewrite !load_slice, A0, A1, A2, A3, A4, A5, A6. cbn [option_map obind].
  destruct Hr as (R1 & R2 & R3 & R4 & R5 & R6 & R7 & R8). unfold is_u32, is_u16, is_byte in *.
  rewrite !le_val_small by (cbn; lia). rewrite E, Nat2Z.id, A7. cbn [obind]. rewrite <- E. destruct it as [c []]; reflexivity.
Qed.
Lemma at_prefix m m' off it k : at_item m off it -> firstn k m' = firstn k m -> (off + 18 + length (q_data (i_req it)) <= k)%nat ->
  (k <= length m)%nat -> at_item m' off it.
Proof.
  intros (A0 & A1 & A2 & A3 & A4 & A5 & A6 & A7) E H Hk. unfold at_item.
  rewrite !(slice_prefix _ m m' _ k E) by lia. auto 10.
Qed.

Lemma put_item_ok m off it : item_ok it -> (off + 18 + length (q_data (i_req it)) <= length m)%nat ->
  exists m', put_item m off it = Some m' /\ length m' = length m /\ firstn off m' = firstn off m /\ at_item m' off it.
Proof.
  intros (Hc & Hr & E) H. unfold put_item. rewrite <- E.
  destruct (put_ok m off (le_bytes 4 (i_client it))) as (m0 & E0 & L0); [rewrite le_bytes_length; lia|]. rewrite E0. cbn [obind].
  destruct (put_ok m0 (off + 4) (le_bytes 4 (q_tid (i_req it)))) as (m1 & E1 & L1); [rewrite le_bytes_length; lia|]. rewrite E1. cbn [obind].
  destruct (put_ok m1 (off + 10) (le_bytes 2 (q_addr (i_req it)))) as (m2 & E2 & L2); [rewrite le_bytes_length; lia|]. rewrite E2. cbn [obind].
  destruct (put_ok m2 (off + 8) (le_bytes 1 (q_func (i_req it)))) as (m3 & E3 & L3); [rewrite le_bytes_length; lia|]. rewrite E3. cbn [obind].
  destruct (put_ok m3 (off + 12) (le_bytes 2 (q_start (i_req it)))) as (m4 & E4 & L4); [rewrite le_bytes_length; lia|]. rewrite E4. cbn [obind].
  destruct (put_ok m4 (off + 14) (le_bytes 2 (q_nitems (i_req it)))) as (m5 & E5 & L5); [rewrite le_bytes_length; lia|]. rewrite E5. cbn [obind].
  destruct (put_ok m5 (off + 16) (le_bytes 2 (q_nbytes (i_req it)))) as (m6 & E6 & L6); [rewrite le_bytes_length; lia|]. rewrite E6. cbn [obind].
  destruct (put_ok m6 (off + 18) (q_data (i_req it))) as (m7 & E7 & L7); [lia|].
  assert (X : match q_data (i_req it) with [] => Some m6 | d => put m6 (off + 18) d end = Some m7).
  { destruct (q_data (i_req it)) as [|z d] eqn:D; [|exact E7]. apply put_spec in E7 as [_ ->]. cbn [length app]. now rewrite Nat.add_0_r, firstn_skipn. }
  exists m7. split; [exact X|]. split; [congruence|].
  assert (P : forall a b o bs, put a o bs = Some b -> (off <= o)%nat -> firstn off b = firstn off a).
  { intros a b o bs Hp Ho. apply put_spec in Hp as [Hp ->]. rewrite firstn_app, firstn_firstn, firstn_length.
    replace (off - Nat.min o (length a))%nat with 0%nat by lia. rewrite firstn_O, app_nil_r. f_equal. lia. }
  split.
  { rewrite (P _ _ _ _ E7), (P _ _ _ _ E6), (P _ _ _ _ E5), (P _ _ _ _ E4), (P _ _ _ _ E3), (P _ _ _ _ E2), (P _ _ _ _ E1), (P _ _ _ _ E0) by lia. reflexivity. }
  assert (B : forall a b o bs n k, put a o bs = Some b -> (k + n <= o)%nat \/ (o + length bs <= k)%nat -> slice n b k = slice n a k).
  { intros a b o bs n k Hp [Ho|Ho]; [eapply slice_put_before; eauto|eapply slice_put_after; eauto]. }
  assert (W : forall a b o bs n, put a o bs = Some b -> n = length bs -> slice n b o = Some bs) by (intros ? ? ? ? ? ? ->; eapply slice_put_same; eauto).
  unfold at_item. repeat split.
  - rewrite (B _ _ _ _ 4%nat off E7), (B _ _ _ _ 4%nat off E6), (B _ _ _ _ 4%nat off E5), (B _ _ _ _ 4%nat off E4), (B _ _ _ _ 4%nat off E3), (B _ _ _ _ 4%nat off E2), (B _ _ _ _ 4%nat off E1) by lia. eapply W; [exact E0|now rewrite le_bytes_length].
  - rewrite (B _ _ _ _ 4%nat (off + 4)%nat E7), (B _ _ _ _ 4%nat (off + 4)%nat E6), (B _ _ _ _ 4%nat (off + 4)%nat E5), (B _ _ _ _ 4%nat (off + 4)%nat E4), (B _ _ _ _ 4%nat (off + 4)%nat E3), (B _ _ _ _ 4%nat (off + 4)%nat E2) by lia. eapply W; [exact E1|now rewrite le_bytes_length].
  - rewrite (B _ _ _ _ 1%nat (off + 8)%nat E7), (B _ _ _ _ 1%nat (off + 8)%nat E6), (B _ _ _ _ 1%nat (off + 8)%nat E5), (B _ _ _ _ 1%nat (off + 8)%nat E4) by lia. eapply W; [exact E3|now rewrite le_bytes_length].
  - rewrite (B _ _ _ _ 2%nat (off + 10)%nat E7), (B _ _ _ _ 2%nat (off + 10)%nat E6), (B _ _ _ _ 2%nat (off + 10)%nat E5), (B _ _ _ _ 2%nat (off + 10)%nat E4), (B _ _ _ _ 2%nat (off + 10)%nat E3) by (rewrite ?le_bytes_length; lia). eapply W; [exact E2|now rewrite le_bytes_length].
  - rewrite (B _ _ _ _ 2%nat (off + 12)%nat E7), (B _ _ _ _ 2%nat (off + 12)%nat E6), (B _ _ _ _ 2%nat (off + 12)%nat E5) by lia. eapply W; [exact E4|now rewrite le_bytes_length].
  - rewrite (B _ _ _ _ 2%nat (off + 14)%nat E7), (B _ _ _ _ 2%nat (off + 14)%nat E6) by lia. eapply W; [exact E5|now rewrite le_bytes_length].
  - rewrite (B _ _ _ _ 2%nat (off + 16)%nat E7) by lia. eapply W; [exact E6|now rewrite le_bytes_length].
  - eapply W; [exact E7|reflexivity].
Qed.

(** * Batches *)
(** The items [its] lie one behind the other from [off]. *)
Fixpoint laid (m : list Z) (off : nat) (its : list item) : Prop :=
  match its with [] => True | it :: r => at_item m off it /\ laid m (off + room it) r end.

Lemma laid_prefix its : forall m m' off k, laid m off its -> firstn k m' = firstn k m -> (k <= length m)%nat ->
  (off + rooms its <= k)%nat -> laid m' off its.
Proof.
  induction its as [|it r IH]; intros m m' off k L E Hk H; [exact I|]. destruct L as [A L]. unfold rooms in H. cbn [map list_sum] in H.
  pose proof (room_pos it). split.
  - eapply at_prefix; eauto. change (list_sum (room it :: map room r)) with (room it + list_sum (map room r))%nat in H. lia.
  - change (list_sum (room it :: map room r)) with (room it + list_sum (map room r))%nat in H. eapply IH; eauto. unfold rooms. lia.
Qed.

Lemma walk_laid its : forall m off it r, Forall item_ok (its ++ it :: r) -> laid m off (its ++ it :: r) ->
  walk m off (length its) = Some (off + rooms its)%nat.
Proof.
  induction its as [|x its IH]; intros m off it r Hok L.
  - cbn. f_equal. unfold rooms. cbn. lia.
  - cbn [app laid length walk] in *. destruct L as [A L]. inversion Hok; subst. rewrite (at_nbytes m off x) by auto.
    rewrite stride_item by auto. rewrite (IH m _ it r) by auto. f_equal. unfold rooms. cbn [map]. change (list_sum (room x :: map room its)) with (room x + list_sum (map room its))%nat. lia.
Qed.
Lemma walk_end its : forall m off, Forall item_ok its -> laid m off its -> walk m off (length its) = Some (off + rooms its)%nat.
Proof.
  induction its as [|x its IH]; intros m off Hok L.
  - cbn. f_equal. unfold rooms. cbn. lia.
  - cbn [laid length walk] in *. destruct L as [A L]. inversion Hok; subst. rewrite (at_nbytes m off x) by auto.
    rewrite stride_item by auto. rewrite (IH m) by auto. f_equal. unfold rooms. cbn [map]. change (list_sum (room x :: map room its)) with (room x + list_sum (map room its))%nat. lia.
Qed.
Lemma laid_app a : forall m off b, laid m off (a ++ b) <-> laid m off a /\ laid m (off + rooms a) b.
Proof.
  induction a as [|x a IH]; intros m off b; cbn [app laid].
  - unfold rooms. cbn. rewrite Nat.add_0_r. tauto.
  - rewrite IH. unfold rooms. cbn [map]. change (list_sum (room x :: map room a)) with (room x + list_sum (map room a))%nat. rewrite Nat.add_assoc. tauto.
Qed.
Lemma rooms_app a b : rooms (a ++ b) = (rooms a + rooms b)%nat.
Proof. unfold rooms. now rewrite map_app, list_sum_app. Qed.

Lemma put_items_ok its : forall done m, Forall item_ok (done ++ its) -> laid m itemsOff done ->
  (itemsOff + rooms (done ++ its) <= length m)%nat ->
  exists m', put_items m (length done) its = Some m' /\ length m' = length m /\
    firstn itemsOff m' = firstn itemsOff m /\ laid m' itemsOff (done ++ its).
Proof.
  induction its as [|it r IH]; intros done m Hok L H.
  - exists m. rewrite app_nil_r. auto.
  - pose proof Hok as Hok'. apply Forall_app in Hok' as [Hd Hi]. inversion Hi; subst.
    cbn [put_items]. unfold item_off. rewrite walk_end by auto. cbn [obind].
    rewrite rooms_app in H. change (rooms (it :: r)) with (room it + rooms r)%nat in H. pose proof (room_pos it).
    destruct (put_item_ok m (itemsOff + rooms done) it) as (m1 & E & L1 & P & A); [auto|lia|]. rewrite E. cbn [obind].
    destruct (IH (done ++ [it]) m1) as (m2 & E2 & L2 & P2 & A2).
    + rewrite <- app_assoc. exact Hok.
    + apply laid_app. split; [|cbn [laid]; auto]. eapply laid_prefix; [exact L|exact P| |]; lia.
    + rewrite <- app_assoc. cbn [app]. rewrite rooms_app. change (rooms (it :: r)) with (room it + rooms r)%nat. lia.
    + rewrite app_length in E2. cbn [length] in E2. rewrite Nat.add_1_r in E2. exists m2. rewrite E2, L2, L1, P2. rewrite <- app_assoc in A2.
      repeat split; auto.
      assert (X : firstn itemsOff (firstn (itemsOff + rooms done) m1) = firstn itemsOff (firstn (itemsOff + rooms done) m)) by now rewrite P.
      rewrite !firstn_firstn in X. replace (Nat.min itemsOff (itemsOff + rooms done)) with itemsOff in X by lia. exact X.
Qed.

Lemma size_laid its : forall m off acc, Forall item_ok its -> laid m off its -> 0 <= acc ->
  acc + Z.of_nat (rooms its) < 18446744073709551616 -> size_loop m off acc (length its) = Some (acc + Z.of_nat (rooms its)).
Proof.
  induction its as [|x its IH]; intros m off acc Hok L Ha H; cbn [length size_loop].
  - f_equal. unfold rooms. cbn. lia.
  - destruct L as [A L]. inversion Hok; subst. change (rooms (x :: its)) with (room x + rooms its)%nat in *.
    rewrite (at_nbytes m off x) by auto. rewrite stride_item by auto.
    assert (S : stride (q_nbytes (i_req x)) = Z.of_nat (room x)).
    { rewrite <- stride_item by auto. rewrite Z2Nat.id; [reflexivity|]. destruct H2 as (_ & Hr & _). rewrite stride_room by apply Hr.
      destruct Hr as (_ & _ & _ & _ & _ & Hr & _). unfold is_u16 in Hr. lia. }
    rewrite S. unfold u64. rewrite Z.mod_small by lia. rewrite IH; auto; try lia. f_equal. lia.
Qed.
Lemma read_laid its : forall done m, Forall item_ok (done ++ its) -> laid m itemsOff (done ++ its) ->
  rd_items m (length done) (length its) = Some its.
Proof.
  induction its as [|it r IH]; intros done m Hok L; [reflexivity|]. cbn [length rd_items]. unfold item_off.
  rewrite (walk_laid done m itemsOff it r Hok L). cbn [obind]. pose proof Hok as Hok'. apply Forall_app in Hok' as [_ Hi]. inversion Hi; subst.
  pose proof L as L'. apply laid_app in L' as [_ [A _]]. rewrite (at_read m _ it) by auto. cbn [obind].
  specialize (IH (done ++ [it]) m). rewrite <- app_assoc, app_length in IH. cbn [length app] in IH. rewrite Nat.add_1_r in IH.
  rewrite IH by auto. reflexivity.
Qed.

Lemma rooms_bound its : Forall item_ok its -> Z.of_nat (rooms its) <= 65584 * Z.of_nat (length its).
Proof.
  induction 1 as [|it r Hi _ IH]; [unfold rooms; cbn; lia|]. change (rooms (it :: r)) with (room it + rooms r)%nat. cbn [length].
  assert (Z.of_nat (room it) <= 65584); [|lia]. destruct Hi as (_ & (_ & _ & _ & _ & _ & Hr & _) & E). unfold is_u16 in Hr. unfold room. lia.
Qed.

Lemma batch_ok m its : Forall item_ok its -> Z.of_nat (length its) < 65536 -> (total its <= length m)%nat ->
  exists m', write_batch m its = Some m' /\ length m' = length m /\ firstn 8 m' = firstn 8 m /\
    (forall tail, num_items (firstn (total its) m' ++ tail) = Some (Z.of_nat (length its)) /\
       laid (firstn (total its) m' ++ tail) itemsOff its).
Proof.
  intros Hok Hn H. unfold total in H. unfold write_batch.
  destruct (put_ok m 8 (le_bytes 2 (Z.of_nat (length its)))) as (m0 & E0 & L0); [rewrite le_bytes_length; lia|]. rewrite E0. cbn [obind].
  destruct (put_items_ok its [] m0) as (m' & E & L & P & A); [exact Hok|exact I|unfold itemsOff; cbn [app]; lia|].
  cbn [length app] in E, A. exists m'. rewrite E. split; [reflexivity|]. split; [congruence|]. split.
  - assert (X : firstn 8 (firstn itemsOff m') = firstn 8 (firstn itemsOff m0)) by now rewrite P.
    rewrite !firstn_firstn in X. cbn [Nat.min itemsOff] in X. rewrite X. apply put_spec in E0 as [_ ->].
    rewrite firstn_app, firstn_firstn, firstn_length. replace (8 - Nat.min 8 (length m))%nat with 0%nat by lia. cbn [firstn Nat.min]. now rewrite app_nil_r.
  - intros tail. set (copy := firstn (total its) m' ++ tail). assert (Pc : firstn (total its) copy = firstn (total its) m').
    { unfold copy. rewrite firstn_app, firstn_firstn, Nat.min_id, firstn_length. replace (total its - _)%nat with 0%nat by (unfold total; lia). now rewrite firstn_O, app_nil_r. }
    split.
    + unfold num_items. rewrite load_slice.
      rewrite (slice_prefix 2 m' copy 8 (total its) Pc) by (unfold total; lia).
      rewrite (slice_prefix 2 m0 m' 8 itemsOff P) by (unfold itemsOff; lia).
      assert (X := slice_put_same _ _ _ _ E0). rewrite le_bytes_length in X. rewrite X. cbn [option_map]. f_equal. apply le_val_small. cbn. lia.
    + eapply laid_prefix; [exact A|exact Pc| |]; unfold total, itemsOff; lia.
Qed.
