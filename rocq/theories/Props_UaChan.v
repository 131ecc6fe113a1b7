(** Theorems about the secure channel layer, C45-C48, C75-C80. *)
From Verif Require Import Base QueueModel PoolModel EntProofs ModbusCodecModel ModbusCodecSpec ModbusClientModel ModbusClientProofs
  UaCodecModel UaCodecSpec UaCodecProofs UaTcpModel UaTcpSpec UaTcpProofs UaTcpRuns UaTcpFacts UaChanModel UaChanSpec UaChanProofs UaChanRuns UaChanFacts.
Local Open Scope Z_scope.

(** Contents of uninitialised memory used by the examples. *)
Definition jz : list Z := repeat 0 (Z.to_nat 4096).
Definition ini0 : list (Z * Z) := repeat (0, 0) 32.
Lemma ini0_ok : cini_ok ini0.
Proof. split; [reflexivity|]. apply Forall_forall. intros x Hx. apply repeat_spec in Hx as ->. unfold is_u32. cbn. lia. Qed.
(** An open request with empty security header; the rest comes out of the zeros behind it. *)
Definition opn (conn seq req : Z) : umsg := mkUm conn 0 2 20 (repeat 0 12 ++ le_bytes 4 seq ++ le_bytes 4 req).
Definition open_ev (conn seq req rnd : Z) : cev := CvOpen (opn conn seq req) jz rnd 0 0.
Definition opened (conn uid start req token : Z) : list cout := [CTx KOpn (rsp_of conn uid (open_rsp uid start req 0 token 0 0 0))].
(** An open request whose first string has length -2. *)
Definition bad_opn (conn : Z) : umsg := mkUm conn 0 2 4 [254; 255; 255; 255].
Definition bad_ev (conn : Z) : cev := CvOpen (bad_opn conn) jz 0 0 0.
(** A message with token, sequence number, request id and body. *)
Definition umsg_of (conn ch tok seq req : Z) (body : list Z) : umsg :=
  mkUm conn ch 2 (12 + Z.of_nat (length body)) (le_bytes 4 tok ++ le_bytes 4 seq ++ le_bytes 4 req ++ body).
Lemma cev1 e : cev_okb e = true -> cev_ok e.
Proof. intros H. apply (Forall_inv (l := [])), cev_okb_ok. cbn [forallb]. now rewrite H. Qed.
Definition body4 : list Z := [1; 0; 119; 2].

(** * C45 *)

Lemma le_at_own m j i : umsg_ok m -> (i + 4 <= Z.to_nat (um_len m))%nat -> le_at i (octets m j) = le_at i (um_data m).
Proof.
  intros (_ & _ & _ & Hl & _ & Hd) Hi. unfold le_at, octets. f_equal.
  assert (X : forall (a b : list Z), (i + 4 <= length a)%nat -> firstn 4 (skipn i (a ++ b)) = firstn 4 (skipn i a)).
  { intros a b Hab. rewrite skipn_app, firstn_app. replace (4 - length (skipn i a))%nat with 0%nat by (rewrite skipn_length; lia).
    rewrite firstn_O. apply app_nil_r. }
  rewrite X by (rewrite firstn_length; lia). rewrite <- (firstn_skipn (Z.to_nat (um_len m)) (um_data m)) at 2. symmetry. apply X. rewrite firstn_length; lia.
Qed.

(** A message handed to the services is a secured message of at least 12 octets ... or shorter, see below; of one that
    long: the channel is open, it came over the channel's connection, with the token the server gave out in
    the open response, and the number after that of the last message taken. *)
Theorem C45_accepted_partial ini v tr e v' os x : creach ini v tr -> cev_ok e -> csrv_step v e = Some (v', os) -> In (CInd x) os ->
  exists m j, e = CvMsg m j /\ os = [CInd x] /\ e_chan (em_hdr x) = um_chan m /\ e_conn (em_hdr x) = um_conn m /\
    copen (um_chan m) tr /\ um_conn m = cconn (um_chan m) tr /\
    (12 <= um_len m -> le_at 0 (um_data m) = ctoken (um_chan m) tr /\
       le_at 4 (um_data m) = (clast (um_chan m) tr + 1) mod 4294967296 /\ e_req (em_hdr x) = le_at 8 (um_data m)).
Proof.
  intros HR He Hs Hi. pose proof (step_fact _ _ _ _ _ _ HR He Hs) as F.
  destruct F as [m j rnd t1 t2 os Hop|e t Ec Ht Hn|m j e Hor Ht|m j Ht Ho Hac|m Ht|m t Et Ht|m j now t r b Et Ht|m j now Ht Hop Hac|h Ht|conn ch Ht];
    try (cbn in Hi; intuition discriminate).
  - destruct Hop; cbn in Hi; intuition discriminate.
  - destruct Hi as [Hi|[]]. injection Hi as <-. exists m, j. destruct Hac as (A & B & C). pose proof He as [Hm Hj].
    repeat (split; [first [reflexivity|assumption]|]). intros Hl. cbn [ind_of em_hdr e_req].
    rewrite <- (le_at_own m j 0), <- (le_at_own m j 4), <- (le_at_own m j 8); auto; lia.
Qed.

(** Anything else arriving on an open channel closes it, and its connection. *)
Theorem C45_closes ini v tr m j : creach ini v tr -> cev_ok (CvMsg m j) -> 1 <= um_chan m <= 32 -> copen (um_chan m) tr ->
  ~ acceptable (um_chan m) tr m j ->
  exists v', csrv_step v (CvMsg m j) = Some (v', [CRelReq (um_conn m); CFree (um_chan m)]) /\
    ~ copen (um_chan m) (tr ++ [(CvMsg m j, [CRelReq (um_conn m); CFree (um_chan m)])]).
Proof.
  intros HR He Hu Ho Ha. destruct (msg_fact _ _ _ HR m j He Hu) as (_ & B & _). destruct (B Ho Ha) as [v' Hs].
  exists v'. split; [auto|]. unfold copen in *. rewrite cview_snoc. cbn. rewrite Z.eqb_refl. cbn. lia.
Qed.

(** Two messages taken by the same opening of a channel: same token, same connection, and the numbers differ by the count of
    messages taken in between (plus one), so none is taken twice within 2^32 messages. *)
Theorem C45_once_partial ini v tr1 m1 j1 x1 tr2 m2 j2 x2 uid :
  creach ini v (tr1 ++ (CvMsg m1 j1, [CInd x1]) :: tr2 ++ [(CvMsg m2 j2, [CInd x2])]) ->
  um_chan m1 = uid -> um_chan m2 = uid -> unfreed uid tr2 ->
  le_at 4 (octets m2 j2) = (le_at 4 (octets m1 j1) + 1 + Z.of_nat (ntaken uid tr2)) mod 4294967296 /\
  le_at 0 (octets m2 j2) = le_at 0 (octets m1 j1) /\ um_conn m2 = um_conn m1 /\
  (Z.of_nat (ntaken uid tr2) < 4294967295 -> octets m1 j1 <> octets m2 j2).
Proof.
  intros HR H1 H2 Hf.
  destruct (reach_split _ _ _ HR tr1 _ _ _ eq_refl) as (v1 & v1' & R1 & He1 & Hs1 & R1').
  assert (HR' : creach ini v ((tr1 ++ (CvMsg m1 j1, [CInd x1]) :: tr2) ++ [(CvMsg m2 j2, [CInd x2])])) by (rewrite <- app_assoc; exact HR).
  destruct (reach_split _ _ _ HR' _ _ _ [] eq_refl) as (v2 & v2' & R2 & He2 & Hs2 & _).
  assert (G : forall v tr m j v' x, creach ini v tr -> cev_ok (CvMsg m j) -> csrv_step v (CvMsg m j) = Some (v', [CInd x]) ->
    copen (um_chan m) tr /\ acceptable (um_chan m) tr m j).
  { clear. intros v tr m j v' x HR He Hs. pose proof (step_fact _ _ _ _ _ _ HR He Hs) as F. inversion F; subst; auto. }
  destruct (G _ _ _ _ _ _ R1 He1 Hs1) as [O1 A1]. destruct (G _ _ _ _ _ _ R2 He2 Hs2) as [O2 A2]. rewrite H1 in *. rewrite H2 in *.
  destruct (opening_run ini uid tr1 ((CvMsg m1 j1, [CInd x1]) :: tr2) v2 R2 O1) as (P1 & P2 & P3 & P4 & P5 & P6).
  { intros x [<-|Hx]; [cbn; intuition discriminate|auto]. }
  destruct A1 as (A & B & C). destruct A2 as (A' & B' & C').
  assert (N : ntaken uid ((CvMsg m1 j1, [CInd x1]) :: tr2) = S (ntaken uid tr2)).
  { unfold ntaken. cbn [filter taken]. rewrite H1, Z.eqb_refl. reflexivity. }
  rewrite N in P5. rewrite P5 in C'. rewrite P3 in B'. rewrite P2 in A'.
  destruct (open_u32 _ _ _ _ R1 O1) as (_ & L1 & _). unfold is_u32 in L1.
  assert (E : le_at 4 (octets m2 j2) = (le_at 4 (octets m1 j1) + 1 + Z.of_nat (ntaken uid tr2)) mod 4294967296).
  { rewrite C', C. clear. lia. }
  split; [exact E|]. split; [congruence|]. split; [congruence|].
  intros Hlt X. rewrite X in E. pose proof (le_at_bound 4 (octets m2 j2)) as Bd.
  assert (Hb : bytes_ok (octets m2 j2)) by (destruct He2; now apply octets_ok). specialize (Bd Hb). unfold is_u32 in Bd. clear - E Bd Hlt. lia.
Qed.

(** A message of fewer than 12 octets is completed from the stack: it can be taken without carrying token and number. *)
Theorem C45_refuted :
  ~ (forall ini v tr m j v' x, creach ini v tr -> cev_ok (CvMsg m j) -> csrv_step v (CvMsg m j) = Some (v', [CInd x]) -> 12 <= um_len m).
Proof.
  intros H.
  destruct (couts_last ini0 [open_ev 1 4294967295 1 0] [opened 1 1 1 1 0] (CvMsg (mkUm 1 1 2 8 [0; 0; 0; 0; 0; 0; 0; 0]) jz)
    [CInd (mkEm (mkEh 1 1 0 2147483647) 8 [0; 0; 0; 0; 0; 0; 0; 0])] ini0_ok) as (v & v' & R & He & Hs & _);
    [vm_compute; reflexivity|reflexivity|vm_compute; reflexivity|].
  apply (H _ _ _ _ _ _ _ R He) in Hs. cbn in Hs. lia.
Qed.

Definition c45_es : list cev := [open_ev 7 41 1 99; CvMsg (umsg_of 7 1 99 42 5 body4) jz].
Definition c45_os : list (list cout) := [opened 7 1 1 1 99; [CInd (mkEm (mkEh 7 1 5 2147483647) 16 (body4 ++ repeat 0 12))]].
(** Message 42 is taken, 43 is taken after it, and a replay of 42 closes. *)
Example C45_case : exists v v1 v2, creach ini0 v (combine c45_es c45_os) /\ copen 1 (combine c45_es c45_os) /\
  ctoken 1 (combine c45_es c45_os) = 99 /\ clast 1 (combine c45_es c45_os) = 42 /\
  csrv_step v (CvMsg (umsg_of 7 1 99 43 6 body4) jz) = Some (v1, [CInd (mkEm (mkEh 7 1 6 2147483647) 16 (body4 ++ repeat 0 12))]) /\
  csrv_step v (CvMsg (umsg_of 7 1 99 42 5 body4) jz) = Some (v2, [CRelReq 7; CFree 1]).
Proof.
  assert (L : length c45_es = length c45_os) by reflexivity.
  destruct (couts_reach ini0 _ c45_es c45_os ini0_ok ltac:(vm_compute; reflexivity) eq_refl ltac:(vm_compute; reflexivity)) as [v R].
  destruct (msg_fact _ _ _ R (umsg_of 7 1 99 43 6 body4) jz) as (_ & _ & A & _).
  { apply cev1; vm_compute; reflexivity. } { cbn; lia. }
  destruct (msg_fact _ _ _ R (umsg_of 7 1 99 42 5 body4) jz) as (_ & B & _).
  { apply cev1; vm_compute; reflexivity. } { cbn; lia. }
  destruct A as [v1 A]; [reflexivity|repeat split; vm_compute; reflexivity|cbn; lia|].
  destruct B as [v2 B]; [reflexivity|intros (_ & _ & X); vm_compute in X; discriminate|].
  exists v, v1, v2. split; [exact R|]. split; [reflexivity|]. split; [vm_compute; reflexivity|]. split; [vm_compute; reflexivity|].
  split; [rewrite A; vm_compute; reflexivity|exact B].
Qed.

(** * C46 *)

Lemma tx_num ini v tr e v' os k m : creach ini v tr -> cev_ok e -> csrv_step v e = Some (v', os) -> In (CTx k m) os ->
  let uid := um_chan m in
  (k = KOpn -> ~ copen uid tr /\ out_seq k m = cstart uid tr) /\
  (k <> KOpn -> copen uid tr /\ out_seq k m = (cstart uid tr + Z.of_nat (csent uid tr)) mod 4294967296) /\
  (~ In (CFree uid) os -> copen uid (tr ++ [(e, os)]) /\ cfreed uid (tr ++ [(e, os)]) = cfreed uid tr /\
     csent uid (tr ++ [(e, os)]) = match k with KOpn => 1%nat | _ => S (csent uid tr) end).
Proof.
  intros HR He Hs Hi uid. pose proof (step_fact _ _ _ _ _ _ HR He Hs) as F.
  assert (St : forall t, is_u32 (cstart t tr)) by (intros t; unfold cstart, is_u32; destruct (_ =? _)%nat; lia).
  assert (Sn : forall t, is_u32 ((cstart t tr + Z.of_nat (csent t tr)) mod 4294967296)) by (intros t; unfold is_u32; lia).
  inversion F as [m' j rnd t1 t2 os' Hop|e' t Ec Ht Hn|m' j e' Hor Ht|m' j Ht Ho Hac|m' Ht|m' t Et Ht Ho Hse Hle|m' j now t r b Et Ht Ho Hac Hd|m' j now Ht Hop Hac|h Ht|conn ch Ht]; subst;
    try (cbn in Hi; intuition discriminate).
  - destruct He as (Hm & Hj & Hrnd & _). destruct Hop as [Hf|t Hf Ht|t q r b Hf Ht Hno]; try (cbn in Hi; intuition discriminate).
    destruct Hi as [Hi|[]]. injection Hi as <- <-. unfold uid. cbn [rsp_of um_chan]. split; [|split].
    + intros _. split; [auto|]. unfold out_seq. cbn [rsp_of um_data].
      assert (Hb : bytes_ok (octets m' j)) by now apply octets_ok.
      apply open_fields; auto; [unfold is_u32; lia|]. unfold open_req. apply le_at_bound.
      clear - Hb. revert Hb. generalize (octets m' j). generalize 3%nat. induction n; intros l Hl; cbn [skip_strs]; auto. apply IHn. now apply bytes_skipn.
    + congruence.
    + intros _.
      unfold copen, cfreed, csent. rewrite cview_snoc. unfold cview_next, ccount. cbn [rsp_of um_chan]. rewrite Z.eqb_refl.
      cbn [filter is_cfree length w_opens w_frees w_sent]. rewrite Nat.add_0_r.
      destruct (chan_in _ _ _ (reach_inv _ _ _ HR) Ht) as (c & _ & HC & _). pose proof (CO_shut _ _ _ HC Hno) as E.
      unfold CO in HC. rewrite E in HC. destruct HC as (HC & _). rewrite HC. auto.
  - destruct Hi as [Hi|[]]. injection Hi as <- <-. unfold uid. cbn [rsp_of um_chan]. split; [congruence|]. split.
    + intros _. split; [auto|]. unfold out_seq. cbn [rsp_of um_data]. destruct (open_u32 _ _ _ _ HR Ho) as (_ & _ & Htk).
      apply msg_fields; auto. cbn in He. destruct He as ((_ & _ & X & _) & _). exact X.
    + intros Hnf. destruct (opening_step _ _ _ _ _ _ _ HR He Hs Ho Hnf) as (A & _ & _ & B & _ & C).
      split; [auto|]. split; [auto|]. rewrite C. unfold ntx, ctotal, ccount. cbn [map snd filter is_tx rsp_of um_chan]. rewrite Z.eqb_refl. cbn. lia.
  - destruct Hi as [Hi|[Hi|[Hi|[]]]]; try discriminate. injection Hi as <- <-. unfold uid. cbn [rsp_of um_chan]. split; [congruence|]. split.
    + intros _. split; [auto|]. unfold out_seq. cbn [rsp_of um_data]. unfold close_rsp.
      destruct (open_u32 _ _ _ _ HR Ho) as (_ & _ & Htk). rewrite <- app_assoc. now apply le_at_app.
    + intros Hnf. exfalso. apply Hnf. right. right. now left.
Qed.

(** Two messages sent in the same opening of a channel: numbers differ by one more than the count of messages sent between. *)
Theorem C46_numbers_partial ini v tr1 e1 os1 tr2 e2 os2 k1 m1 k2 m2 uid :
  creach ini v (tr1 ++ (e1, os1) :: tr2 ++ [(e2, os2)]) -> In (CTx k1 m1) os1 -> In (CTx k2 m2) os2 ->
  um_chan m1 = uid -> um_chan m2 = uid -> unfreed uid ((e1, os1) :: tr2) ->
  out_seq k2 m2 = (out_seq k1 m1 + 1 + Z.of_nat (ntx uid tr2)) mod 4294967296.
Proof.
  intros HR I1 I2 H1 H2 Hf.
  destruct (reach_split _ _ _ HR tr1 _ _ _ eq_refl) as (v1 & v1' & R1 & He1 & Hs1 & R1').
  assert (HR' : creach ini v ((tr1 ++ (e1, os1) :: tr2) ++ [(e2, os2)])) by (rewrite <- app_assoc; exact HR).
  destruct (reach_split _ _ _ HR' _ _ _ [] eq_refl) as (v2 & v2' & R2 & He2 & Hs2 & _).
  destruct (tx_num _ _ _ _ _ _ _ _ R1 He1 Hs1 I1) as (A & B & C). destruct (tx_num _ _ _ _ _ _ _ _ R2 He2 Hs2 I2) as (A' & B' & _).
  rewrite H1 in *. rewrite H2 in *. destruct C as (C1 & C2 & C3); [apply (Hf (e1, os1)); now left|].
  assert (R2' : creach ini v2 ((tr1 ++ [(e1, os1)]) ++ tr2)) by (rewrite <- app_assoc; exact R2).
  destruct (opening_run ini uid _ tr2 v2 R2' C1) as (P1 & _ & _ & P4 & _ & P6); [intros x Hx; apply Hf; now right|].
  rewrite <- app_assoc in P1, P4, P6. cbn [app] in P1, P4, P6.
  destruct B' as (_ & B'); [intros ->; now destruct (A' eq_refl)|].
  assert (S2 : cstart uid (tr1 ++ (e1, os1) :: tr2) = cstart uid tr1) by (unfold cstart; now rewrite P4, C2).
  rewrite B', S2, P6, C3.
  assert (U : 0 <= cstart uid tr1 < 4294967296) by (unfold cstart; destruct (_ =? _)%nat; lia).
  destruct k1.
  - destruct B as (_ & ->); [discriminate|]. clear. lia.
  - destruct A as (_ & ->); [reflexivity|]. clear - U. lia.
  - destruct B as (_ & ->); [discriminate|]. clear. lia.
Qed.

(** The first number of an opening: 1 if the channel id was never in use before, 0 if it was. *)
Theorem C46_start_partial ini v tr m j rnd t1 t2 v' r : creach ini v tr -> cev_ok (CvOpen m j rnd t1 t2) ->
  csrv_step v (CvOpen m j rnd t1 t2) = Some (v', [CTx KOpn r]) ->
  out_seq KOpn r = if (cfreed (um_chan r) tr =? 0)%nat then 1 else 0.
Proof.
  intros HR He Hs. destruct (tx_num _ _ _ _ _ _ KOpn r HR He Hs (or_introl eq_refl)) as (A & _). now destruct (A eq_refl).
Qed.

(** Channels 1..32 opened and released in turn. *)
Fixpoint cycle (n : nat) (i : Z) : list cev := match n with O => [] | S k => open_ev 1 10 1 5 :: CvRelInd 1 i :: cycle k (i + 1) end.
Fixpoint cycle_os (n : nat) (i : Z) : list (list cout) := match n with O => [] | S k => opened 1 i 1 1 5 :: [CFree i] :: cycle_os k (i + 1) end.
Theorem C46_refuted :
  ~ (forall ini v1 tr1 m1 j1 rnd1 s1 t1 v1' r1 v2 tr2 m2 j2 rnd2 s2 t2 v2' r2,
       creach ini v1 tr1 -> cev_ok (CvOpen m1 j1 rnd1 s1 t1) -> csrv_step v1 (CvOpen m1 j1 rnd1 s1 t1) = Some (v1', [CTx KOpn r1]) ->
       creach ini v2 tr2 -> cev_ok (CvOpen m2 j2 rnd2 s2 t2) -> csrv_step v2 (CvOpen m2 j2 rnd2 s2 t2) = Some (v2', [CTx KOpn r2]) ->
       out_seq KOpn r1 = out_seq KOpn r2).
Proof.
  intros H.
  destruct (couts_last ini0 [] [] (open_ev 1 10 1 5) (opened 1 1 1 1 5) ini0_ok) as (v1 & v1' & R1 & He1 & Hs1 & _);
    [vm_compute; reflexivity|reflexivity|vm_compute; reflexivity|].
  destruct (couts_last ini0 (cycle 32 1) (cycle_os 32 1) (open_ev 1 10 1 5) (opened 1 1 0 1 5) ini0_ok) as (v2 & v2' & R2 & He2 & Hs2 & _);
    [vm_compute; reflexivity|reflexivity|vm_compute; reflexivity|].
  assert (X := H _ _ _ _ _ _ _ _ _ _ _ _ _ _ _ _ _ _ _ R1 He1 Hs1 R2 He2 Hs2). vm_compute in X. discriminate X.
Qed.

Definition ans (conn ch req sess : Z) (body : list Z) : emsg := mkEm (mkEh conn ch req sess) (Z.of_nat (length body)) body.
Definition c46_es : list cev := [open_ev 7 41 1 99; CvSend (ans 7 1 5 0 body4); CvMsg (umsg_of 7 1 99 42 5 body4) jz; CvSend (ans 7 1 6 0 body4)].
Definition c46_os : list (list cout) :=
  [opened 7 1 1 1 99; [CTx KMsg (rsp_of 7 1 (msg_rsp 99 2 5 body4))]; [CInd (mkEm (mkEh 7 1 5 2147483647) 16 (body4 ++ repeat 0 12))];
   [CTx KMsg (rsp_of 7 1 (msg_rsp 99 3 6 body4))]].
Example C46_case : exists v, creach ini0 v (combine c46_es c46_os) /\ unfreed 1 (combine c46_es c46_os) /\
  map (fun r => out_seq (fst r) (snd r)) [(KOpn, rsp_of 7 1 (open_rsp 1 1 1 0 99 0 0 0)); (KMsg, rsp_of 7 1 (msg_rsp 99 2 5 body4)); (KMsg, rsp_of 7 1 (msg_rsp 99 3 6 body4))] = [1; 2; 3].
Proof.
  destruct (couts_reach ini0 _ c46_es c46_os ini0_ok ltac:(vm_compute; reflexivity) eq_refl ltac:(vm_compute; reflexivity)) as [v R].
  exists v. split; [exact R|]. split; [|vm_compute; reflexivity].
  intros x Hx. cbn in Hx. repeat destruct Hx as [<-|Hx]; try (cbn; intuition discriminate).
Qed.

(** * C47 *)

(** The release indication closes the named channel if it is open, and does nothing to any other. *)
Theorem C47_named_partial ini v tr conn ch : creach ini v tr -> cev_ok (CvRelInd conn ch) -> 1 <= ch <= 32 ->
  exists v' os, csrv_step v (CvRelInd conn ch) = Some (v', os) /\
    (copen ch tr /\ os = [CFree ch] \/ ~ copen ch tr /\ os = []) /\
    (forall e uid, cev_ok e -> cev_chan e = Some uid -> uid <> ch -> option_map snd (csrv_step v' e) = option_map snd (csrv_step v e)).
Proof.
  intros HR He Hu. destruct (relind_fact _ _ _ HR conn ch He Hu) as [A B].
  assert (X : exists v' os, csrv_step v (CvRelInd conn ch) = Some (v', os) /\ (copen ch tr /\ os = [CFree ch] \/ ~ copen ch tr /\ os = [])).
  { destruct (copen_dec ch tr) as [Ho|Ho]; [destruct (A Ho)|destruct (B Ho)]; eauto 8. }
  destruct X as (v' & os & Hs & Hc). exists v', os. split; [auto|]. split; [auto|].
  intros e uid Hok Ec Hne. pose proof (ev_u32 _ _ Hok Ec) as Hu32. pose proof (reach_inv _ _ _ HR) as HI.
  assert (HR' : creach ini v' (tr ++ [(CvRelInd conn ch, os)])) by (econstructor; eauto). pose proof (reach_inv _ _ _ HR') as HI'.
  assert (D : 1 <= uid <= 32 \/ ~ 1 <= uid <= 32) by lia. destruct D as [D|D].
  2:{ now rewrite (on_out _ _ _ _ HI Ec Hu32 D), (on_out _ _ _ _ HI' Ec Hu32 D). }
  assert (Q : q_ch v' = q_ch v \/ exists c', q_ch v' = upd (q_ch v) (Z.to_nat (ch - 1)) c').
  { destruct (chan_in _ _ _ HI Hu) as (c & En & _ & Eg). cbn [csrv_step] in Hs. unfold csrv_on in Hs. rewrite Eg, En in Hs.
    destruct (c_relind ch c) as [c' os']. destruct (csrv_release _ _); [|discriminate]. apply some2 in Hs as (<- & _). right. cbn. eauto. }
  destruct (on_ok _ _ _ _ HI Hok Ec D) as (c & En & _ & Y). destruct (on_ok _ _ _ _ HI' Hok Ec D) as (c2 & En2 & _ & Y2).
  assert (c2 = c) as ->.
  { destruct Q as [Q|[c' Q]]; rewrite Q in En2; [congruence|]. rewrite nth_error_upd_neq in En2 by lia. congruence. }
  destruct (hand uid e c) as [[c' o]|]; [|congruence].
  destruct Y as ((w & -> & _) & _). destruct Y2 as ((w2 & -> & _) & _). reflexivity.
Qed.

(** It does so whichever connection it names: connection 2 takes down the channel of connection 1. *)
Theorem C47_refuted :
  ~ (forall ini v tr conn ch v' os, creach ini v tr -> cev_ok (CvRelInd conn ch) -> copen ch tr -> cconn ch tr <> conn ->
       csrv_step v (CvRelInd conn ch) = Some (v', os) -> ~ In (CFree ch) os).
Proof.
  intros H.
  destruct (couts_last ini0 [open_ev 1 10 1 5] [opened 1 1 1 1 5] (CvRelInd 2 1) [CFree 1] ini0_ok) as (v & v' & R & He & Hs & _);
    [vm_compute; reflexivity|reflexivity|vm_compute; reflexivity|].
  apply (H _ _ _ _ _ _ _ R He) in Hs; [apply Hs; now left|reflexivity|vm_compute; discriminate].
Qed.
Example C47_case : exists v v', creach ini0 v (combine [open_ev 1 10 1 5] [opened 1 1 1 1 5]) /\ cconn 1 (combine [open_ev 1 10 1 5] [opened 1 1 1 1 5]) = 1 /\
  csrv_step v (CvRelInd 1 1) = Some (v', [CFree 1]).
Proof.
  destruct (couts_last ini0 [open_ev 1 10 1 5] [opened 1 1 1 1 5] (CvRelInd 1 1) [CFree 1] ini0_ok) as (v & v' & R & He & Hs & _);
    [vm_compute; reflexivity|reflexivity|vm_compute; reflexivity|].
  exists v, v'. auto.
Qed.

(** * C48, the channel's part *)

(** What leaves a channel goes to the connection the channel belongs to, under the channel's id, echoes the request id, and
    is caused by a request or a response of that connection; the answer of a service leaves unchanged. *)
Theorem C48_channel ini v tr e v' os k r : creach ini v tr -> cev_ok e -> csrv_step v e = Some (v', os) -> In (CTx k r) os ->
  match e with
  | CvOpen m j _ _ _ => k = KOpn /\ um_conn r = um_conn m /\ le_at 63 (um_data r) = open_req (octets m j) /\ ~ copen (um_chan r) tr
  | CvClose m j _ => k = KClo /\ um_conn r = um_conn m /\ um_chan r = um_chan m /\ le_at 8 (um_data r) = le_at 8 (octets m j) /\
      copen (um_chan r) tr /\ um_conn r = cconn (um_chan r) tr
  | CvSend m => k = KMsg /\ um_conn r = e_conn (em_hdr m) /\ um_chan r = e_chan (em_hdr m) /\ le_at 8 (um_data r) = e_req (em_hdr m) /\
      skipn 12 (um_data r) = firstn (Z.to_nat (em_len m)) (em_data m) /\
      copen (um_chan r) tr /\ um_conn r = cconn (um_chan r) tr /\ le_at 0 (um_data r) = ctoken (um_chan r) tr
  | _ => False
  end.
Proof.
  intros HR He Hs Hi. pose proof (step_fact _ _ _ _ _ _ HR He Hs) as F.
  assert (St : forall t, is_u32 (cstart t tr)) by (intros t; unfold cstart, is_u32; destruct (_ =? _)%nat; lia).
  inversion F as [m' j rnd t1 t2 os' Hop|e' t Ec Ht Hn|m' j e' Hor Ht|m' j Ht Ho Hac|m' Ht|m' t Et Ht Ho Hse Hle|m' j now t r' b Et Ht Ho Hac Hd|m' j now Ht Hop Hac|h Ht|conn ch Ht]; subst;
    try (cbn in Hi; intuition discriminate).
  - destruct He as (Hm & Hj & Hrnd & _). destruct Hop as [Hf|t Hf Ht|t q r' b Hf Ht Hno]; try (cbn in Hi; intuition discriminate).
    destruct Hi as [Hi|[]]. injection Hi as <- <-. cbn [rsp_of um_chan um_conn um_data].
    assert (Hb : bytes_ok (octets m' j)) by now apply octets_ok.
    split; [auto|]. split; [auto|]. split; [|auto]. apply open_fields; auto; [unfold is_u32; lia|]. unfold open_req. apply le_at_bound.
    clear - Hb. revert Hb. generalize (octets m' j). generalize 3%nat. induction n; intros l Hl; cbn [skip_strs]; auto. apply IHn. now apply bytes_skipn.
  - destruct Hi as [Hi|[]]. injection Hi as <- <-. cbn [rsp_of um_chan um_conn um_data]. destruct (open_u32 _ _ _ _ HR Ho) as (_ & _ & Htk).
    assert (Hrq : is_u32 (e_req (em_hdr m'))) by (destruct He as ((_ & _ & X & _) & _); exact X).
    destruct (msg_fields (ctoken (e_chan (em_hdr m')) tr) ((cstart (e_chan (em_hdr m')) tr + Z.of_nat (csent (e_chan (em_hdr m')) tr)) mod 4294967296)
      (e_req (em_hdr m')) (body_of m') Htk ltac:(unfold is_u32; lia) Hrq) as (A & B & C & D).
    destruct Hse as [Hse _]. unfold body_of in *. repeat (split; [first [reflexivity|assumption]|]). exact A.
  - destruct Hi as [Hi|[Hi|[Hi|[]]]]; try discriminate. injection Hi as <- <-. cbn [rsp_of um_chan um_conn um_data].
    destruct (open_u32 _ _ _ _ HR Ho) as (_ & _ & Htk). destruct Hac as (Hac & _). destruct He as (Hm & Hj & _).
    assert (X : le_at 8 (close_rsp (ctoken (um_chan m') tr) ((cstart (um_chan m') tr + Z.of_nat (csent (um_chan m') tr)) mod 4294967296)
       (le_at 8 (octets m' j)) (rq_handle (cq_hdr (co_msg r'))) now) = le_at 8 (octets m' j)).
    { unfold close_rsp. rewrite <- !app_assoc. rewrite (app_assoc (le_bytes 4 (ctoken (um_chan m') tr))).
      apply le_at_app; [reflexivity|]. apply le_at_bound. now apply octets_ok. }
    repeat (split; [first [reflexivity|assumption]|]). exact Hac.
Qed.

(** A response for another connection, or another session than the one associated, is refused: nothing is sent and the state kept. *)
Theorem C48_refused ini v tr m : creach ini v tr -> cev_ok (CvSend m) -> 1 <= e_chan (em_hdr m) <= 32 ->
  ~ copen (e_chan (em_hdr m)) tr \/ e_conn (em_hdr m) <> cconn (e_chan (em_hdr m)) tr \/
  (exists s, csession (e_chan (em_hdr m)) tr = Some s /\ s <> e_sess (em_hdr m)) ->
  exists v', csrv_step v (CvSend m) = Some (v', []).
Proof.
  intros HR He Hu Hc. destruct (send_fact _ _ _ HR m He Hu) as (A & _). apply A.
  destruct Hc as [Hc|[Hc|(s & E & Hc)]]; [auto| |]; right; intros (B & C); [congruence|]. destruct C as [C|C]; congruence.
Qed.
Definition c48_es : list cev := [open_ev 7 41 1 99; CvAssoc (mkEh 7 1 0 3)].
Definition c48_os : list (list cout) := [opened 7 1 1 1 99; []].
(** Session 3 is associated: its answers pass, those of session 4 and of connection 8 do not. *)
Example C48_channel_case : exists v v1 v2 v3, creach ini0 v (combine c48_es c48_os) /\ csession 1 (combine c48_es c48_os) = Some 3 /\
  csrv_step v (CvSend (ans 7 1 6 3 body4)) = Some (v1, [CTx KMsg (rsp_of 7 1 (msg_rsp 99 2 6 body4))]) /\
  csrv_step v (CvSend (ans 7 1 6 4 body4)) = Some (v2, []) /\ csrv_step v (CvSend (ans 8 1 6 3 body4)) = Some (v3, []).
Proof.
  destruct (couts_reach ini0 _ c48_es c48_os ini0_ok ltac:(vm_compute; reflexivity) eq_refl ltac:(vm_compute; reflexivity)) as [v R].
  assert (S : csession 1 (combine c48_es c48_os) = Some 3) by (vm_compute; reflexivity).
  destruct (send_fact _ _ _ R (ans 7 1 6 3 body4)) as (_ & A & _).
  { apply cev1; vm_compute; reflexivity. } { cbn; lia. }
  destruct A as [v1 A]; [reflexivity|split; [vm_compute; reflexivity|right; exact S]|cbn; lia|].
  destruct (C48_refused _ _ _ (ans 7 1 6 4 body4) R) as [v2 B].
  { apply cev1; vm_compute; reflexivity. } { cbn; lia. } { right. right. exists 3. split; [exact S|cbn; lia]. }
  destruct (C48_refused _ _ _ (ans 8 1 6 3 body4) R) as [v3 C].
  { apply cev1; vm_compute; reflexivity. } { cbn; lia. } { right. left. vm_compute. discriminate. }
  exists v, v1, v2, v3. split; [exact R|]. split; [exact S|]. split; [rewrite A; vm_compute; reflexivity|]. auto.
Qed.

(** * C49 *)

(** The session a request is passed on with is the one associated with the channel since it was last opened; a channel
    without one passes on the number that no session has. *)
Theorem C49_attached ini v tr e v' os x : creach ini v tr -> cev_ok e -> csrv_step v e = Some (v', os) -> In (CInd x) os ->
  copen (e_chan (em_hdr x)) tr /\
  e_sess (em_hdr x) = match csession (e_chan (em_hdr x)) tr with Some s => s | None => 2147483647 end.
Proof.
  intros HR He Hs Hi. pose proof (step_fact _ _ _ _ _ _ HR He Hs) as F.
  destruct F as [m j rnd t1 t2 os Hop|e t Ec Ht Hn|m j e Hor Ht|m j Ht Ho Hac|m Ht|m t Et Ht|m j now t r b Et Ht|m j now Ht Hop Hac|h Ht|conn ch Ht];
    try (cbn in Hi; intuition discriminate).
  - destruct Hop; cbn in Hi; intuition discriminate.
  - destruct Hi as [Hi|[]]. injection Hi as <-. cbn [ind_of em_hdr e_chan e_sess]. auto.
Qed.
(** [c49_es] opens channel 1 and associates session 3 with it: the next message on it carries session 3. *)
Definition c49_es : list cev := [open_ev 7 41 1 99; CvAssoc (mkEh 7 1 0 3)].
Definition c49_os : list (list cout) := [opened 7 1 1 1 99; []].
Example C49_attached_case : exists v v', creach ini0 v (combine c49_es c49_os) /\ csession 1 (combine c49_es c49_os) = Some 3 /\
  csrv_step v (CvMsg (umsg_of 7 1 99 42 5 body4) jz) = Some (v', [CInd (mkEm (mkEh 7 1 5 3) 16 (body4 ++ repeat 0 12))]).
Proof.
  destruct (couts_last ini0 c49_es c49_os (CvMsg (umsg_of 7 1 99 42 5 body4) jz)
    [CInd (mkEm (mkEh 7 1 5 3) 16 (body4 ++ repeat 0 12))] ini0_ok) as (v & v' & R & He & Hs & _);
    [vm_compute; reflexivity|reflexivity|vm_compute; reflexivity|].
  exists v, v'. split; [exact R|]. split; [vm_compute; reflexivity|exact Hs].
Qed.

(** * C75 *)

(** An open request always takes a channel that is not open, whoever sends it: the other channels of its connection stay. *)
Theorem C75_fresh_partial ini v tr m j rnd t1 t2 v' r : creach ini v tr -> cev_ok (CvOpen m j rnd t1 t2) ->
  csrv_step v (CvOpen m j rnd t1 t2) = Some (v', [CTx KOpn r]) ->
  let tr' := tr ++ [(CvOpen m j rnd t1 t2, [CTx KOpn r])] in
  1 <= um_chan r <= 32 /\ ~ copen (um_chan r) tr /\ copen (um_chan r) tr' /\ cconn (um_chan r) tr' = um_conn m /\
  ctoken (um_chan r) tr' = rnd mod 2147483647 /\ clast (um_chan r) tr' = open_seq (octets m j) /\
  (forall uid, uid <> um_chan r -> cview_of uid tr' = cview_of uid tr).
Proof.
  intros HR He Hs tr'. pose proof (step_fact _ _ _ _ _ _ HR He Hs) as F. destruct He as (Hm & Hj & Hrnd & _).
  assert (St : forall t, is_u32 (cstart t tr)) by (intros t; unfold cstart, is_u32; destruct (_ =? _)%nat; lia).
  inversion F as [m' j' rnd' t1' t2' os' Hop| | | | | | | | |]; subst.
  inversion Hop as [|t Hf Ht|t q r' b Hf Ht Hno Hd]; subst. cbn [rsp_of um_chan].
  destruct (chan_in _ _ _ (reach_inv _ _ _ HR) Ht) as (c & _ & HC & _). pose proof (CO_shut _ _ _ HC Hno) as E.
  unfold CO in HC. rewrite E in HC. destruct HC as (HC & _).
  split; [auto|]. split; [auto|]. unfold tr', copen, cconn, ctoken, clast. rewrite !cview_snoc. unfold cview_next at 1 2 3 4 5, ccount.
  cbn [rsp_of um_chan]. rewrite Z.eqb_refl. cbn [filter is_cfree length w_opens w_frees w_conn w_tok w_in]. rewrite Nat.add_0_r, HC.
  split; [auto|]. split; [auto|]. split; [|split; [auto|]].
  - unfold out_tok. cbn [rsp_of um_data]. assert (Hb : bytes_ok (octets m j)) by now apply octets_ok.
    apply open_fields; auto; [unfold is_u32; lia|]. unfold open_req. apply le_at_bound.
    clear - Hb. revert Hb. generalize (octets m j). generalize 3%nat. induction n; intros l Hl; cbn [skip_strs]; auto. apply IHn. now apply bytes_skipn.
  - intros uid Hne. rewrite cview_snoc. apply (cview_other uid _ _ _ t); [repeat constructor|discriminate|auto].
Qed.
Theorem C75_refuted :
  ~ (forall ini v tr a b, creach ini v tr -> copen a tr -> copen b tr -> cconn a tr = cconn b tr -> a = b).
Proof.
  intros H.
  destruct (couts_reach ini0 _ [open_ev 1 10 1 5; open_ev 1 11 2 6] [opened 1 1 1 1 5; opened 1 2 1 2 6] ini0_ok ltac:(vm_compute; reflexivity) eq_refl
    ltac:(vm_compute; reflexivity)) as [v R].
  assert (X := H _ _ _ 1 2 R eq_refl eq_refl eq_refl). discriminate X.
Qed.
Example C75_case : exists v v', creach ini0 v (combine [open_ev 1 10 1 5] [opened 1 1 1 1 5]) /\
  csrv_step v (open_ev 2 11 2 6) = Some (v', opened 2 2 1 2 6).
Proof.
  destruct (couts_last ini0 [open_ev 1 10 1 5] [opened 1 1 1 1 5] (open_ev 2 11 2 6) (opened 2 2 1 2 6) ini0_ok) as (v & v' & R & He & Hs & _);
    [vm_compute; reflexivity|reflexivity|vm_compute; reflexivity|].
  exists v, v'. auto.
Qed.

(** * C76 *)

(** Open channels and channels lost to undecodable open requests together never exceed 32, and exactly when they reach
    32 open requests go unanswered. *)
Theorem C76_account_partial ini v tr : creach ini v tr -> (ctotal cfrees tr <= ctotal copens tr)%nat /\ (copened tr + ctotal cbad tr <= 32)%nat.
Proof.
  intros HR. split; [|eapply room_fact; eauto]. destruct (reach_inv _ _ _ HR) as [_ _ T]. lia.
Qed.
Theorem C76_refuted :
  ~ (forall ini v tr v' os, creach ini v tr -> copened tr = 0%nat ->
       csrv_step v (open_ev 1 10 1 5) = Some (v', os) -> exists r, os = [CTx KOpn r]).
Proof.
  intros H.
  destruct (couts_last ini0 (repeat (bad_ev 1) 32) (repeat [CThrow] 32) (open_ev 1 10 1 5) [] ini0_ok) as (v & v' & R & He & Hs & _);
    [vm_compute; reflexivity|reflexivity|vm_compute; reflexivity|].
  destruct (H _ _ _ _ _ R ltac:(vm_compute; reflexivity) Hs) as [r X]. discriminate.
Qed.
Example C76_case : exists v, creach ini0 v (combine [open_ev 1 10 1 5; bad_ev 2] [opened 1 1 1 1 5; [CThrow]]) /\
  copened (combine [open_ev 1 10 1 5; bad_ev 2] [opened 1 1 1 1 5; [CThrow]]) = 1%nat /\
  ctotal cbad (combine [open_ev 1 10 1 5; bad_ev 2] [opened 1 1 1 1 5; [CThrow]]) = 1%nat.
Proof.
  destruct (couts_reach ini0 _ [open_ev 1 10 1 5; bad_ev 2] [opened 1 1 1 1 5; [CThrow]] ini0_ok ltac:(vm_compute; reflexivity) eq_refl
    ltac:(vm_compute; reflexivity)) as [v R].
  exists v. split; [exact R|]. split; vm_compute; reflexivity.
Qed.

(** * C77 *)

(** What becomes of an open request: answered if it decodes and a channel is left; without effect if none is left. *)
Theorem C77_outcome_partial ini v tr m j rnd t1 t2 : creach ini v tr -> cev_ok (CvOpen m j rnd t1 t2) ->
  (copened tr + ctotal cbad tr = 32 -> exists v', csrv_step v (CvOpen m j rnd t1 t2) = Some (v', []))%nat /\
  ((copened tr + ctotal cbad tr < 32)%nat ->
   match dec_open_msg (mkSdu 0 (Z.to_nat (um_len m)) (octets m j)) with
   | DOk (q, r) _ => exists v' uid, ~ copen uid tr /\ csrv_step v (CvOpen m j rnd t1 t2) =
       Some (v', [CTx KOpn (rsp_of (um_conn m) uid (open_rsp uid (cstart uid tr) (open_req (octets m j)) (rq_handle (oq_hdr r)) (rnd mod 2147483647) t1 t2 (oq_life r)))])
   | DThrow => exists v', csrv_step v (CvOpen m j rnd t1 t2) = Some (v', [CThrow])
   | DAbort | DOob => csrv_step v (CvOpen m j rnd t1 t2) = None
   end).
Proof.
  intros HR He. destruct (open_fact _ _ _ HR _ _ _ _ _ He) as [(v' & os & Hs & Hop)|(Hs & Hl & Hd)].
  - split; intros Hn; destruct Hop as [Hf|t Hf Ht Hno Hd|t q r b Hf Ht Hno Hd]; try lia; rewrite ?Hd; eauto 6.
  - split; intros Hn; [lia|]. destruct Hd as [->| ->]; exact Hs.
Qed.
Theorem C77_refuted :
  ~ (forall ini v tr m j rnd t1 t2 v' os, creach ini v tr -> cev_ok (CvOpen m j rnd t1 t2) -> csrv_step v (CvOpen m j rnd t1 t2) = Some (v', os) ->
       exists o, In o os /\ match o with CTx KOpn r => um_conn r = um_conn m | CRelReq c => c = um_conn m | _ => False end).
Proof.
  intros H. destruct (couts_last ini0 [] [] (bad_ev 1) [CThrow] ini0_ok) as (v & v' & R & He & Hs & _);
    [vm_compute; reflexivity|reflexivity|vm_compute; reflexivity|].
  destruct (H _ _ _ _ _ _ _ _ _ _ R He Hs) as (o & [<-|[]] & X). exact X.
Qed.
Example C77_case : exists q r b, dec_open_msg (mkSdu 0 20 (octets (opn 1 10 1) jz)) = DOk (q, r) b /\ oq_life r = 0.
Proof. do 3 eexists. split; [vm_compute; reflexivity|reflexivity]. Qed.

(** * C78 *)

(** The services receive the body of the message followed by 12 octets that are not part of it. *)
Theorem C78_body_partial ini v tr m j v' x : creach ini v tr -> cev_ok (CvMsg m j) -> csrv_step v (CvMsg m j) = Some (v', [CInd x]) ->
  12 <= um_len m ->
  em_len x = um_len m /\ length (em_data x) = Z.to_nat (um_len m) /\
  firstn (Z.to_nat (um_len m) - 12) (em_data x) = skipn 12 (firstn (Z.to_nat (um_len m)) (um_data m)) /\
  skipn (Z.to_nat (um_len m) - 12) (em_data x) = firstn 12 (skipn (Z.to_nat (um_len m)) j).
Proof.
  intros HR He Hs Hl. pose proof (step_fact _ _ _ _ _ _ HR He Hs) as F. pose proof He as [Hm Hj].
  assert (E : x = ind_of (um_chan m) (csession (um_chan m) tr) m j /\ um_len m <= 4064) by (inversion F; subst; auto).
  destruct E as [-> Hle]. cbn [ind_of em_len em_data]. pose proof (octets_len _ _ Hm Hj) as HL. pose proof pktLen_Z as HP.
  assert (L1 : length (firstn (Z.to_nat (um_len m)) (um_data m)) = Z.to_nat (um_len m)).
  { destruct Hm as (_ & _ & _ & _ & _ & Hd). rewrite firstn_length. lia. }
  split; [auto|]. split; [rewrite firstn_length, skipn_length; lia|].
  unfold octets. set (a := firstn (Z.to_nat (um_len m)) (um_data m)) in *. set (r := skipn (Z.to_nat (um_len m)) j) in *.
  rewrite skipn_app, L1. replace (12 - Z.to_nat (um_len m))%nat with 0%nat by lia. rewrite skipn_O.
  assert (La : length (skipn 12 a) = (Z.to_nat (um_len m) - 12)%nat) by (rewrite skipn_length; lia).
  rewrite firstn_app, La. replace (Z.to_nat (um_len m) - (Z.to_nat (um_len m) - 12))%nat with 12%nat by lia.
  rewrite (firstn_all2 (skipn 12 a)) by lia. split.
  - rewrite firstn_app, La, Nat.sub_diag, firstn_O, app_nil_r. apply firstn_all2. lia.
  - rewrite skipn_app, La, Nat.sub_diag, skipn_O, skipn_all2 by lia. reflexivity.
Qed.
Theorem C78_refuted :
  ~ (forall ini v tr m j v' x, creach ini v tr -> cev_ok (CvMsg m j) -> csrv_step v (CvMsg m j) = Some (v', [CInd x]) -> 12 <= um_len m ->
       em_len x = um_len m - 12).
Proof.
  intros H.
  destruct (couts_last ini0 [open_ev 7 41 1 99] [opened 7 1 1 1 99] (CvMsg (umsg_of 7 1 99 42 5 body4) jz)
    [CInd (mkEm (mkEh 7 1 5 2147483647) 16 (body4 ++ repeat 0 12))] ini0_ok) as (v & v' & R & He & Hs & _);
    [vm_compute; reflexivity|reflexivity|vm_compute; reflexivity|].
  apply (H _ _ _ _ _ _ _ R He) in Hs; cbn in *; lia.
Qed.
Example C78_case : exists v v', creach ini0 v (combine [open_ev 7 41 1 99] [opened 7 1 1 1 99]) /\
  csrv_step v (CvMsg (umsg_of 7 1 99 42 5 body4) jz) = Some (v', [CInd (mkEm (mkEh 7 1 5 2147483647) 16 (body4 ++ repeat 0 12))]).
Proof.
  destruct (couts_last ini0 [open_ev 7 41 1 99] [opened 7 1 1 1 99] (CvMsg (umsg_of 7 1 99 42 5 body4) jz)
    [CInd (mkEm (mkEh 7 1 5 2147483647) 16 (body4 ++ repeat 0 12))] ini0_ok) as (v & v' & R & He & Hs & _);
    [vm_compute; reflexivity|reflexivity|vm_compute; reflexivity|].
  exists v, v'. auto.
Qed.

(** * C79 *)

(** Exactly when the layer stays within its buffers and arrays. *)
Definition runs_ok (tr : ctrace) (e : cev) : Prop :=
  match e with
  | CvOpen m j _ _ _ => (copened tr + ctotal cbad tr < 32)%nat ->
      dec_open_msg (mkSdu 0 (Z.to_nat (um_len m)) (octets m j)) <> DAbort /\ dec_open_msg (mkSdu 0 (Z.to_nat (um_len m)) (octets m j)) <> DOob
  | CvClose m j _ => 1 <= um_chan m <= 32 /\ (copen (um_chan m) tr -> acceptable (um_chan m) tr m j -> close_dec m j <> DAbort /\ close_dec m j <> DOob)
  | CvMsg m j => 1 <= um_chan m <= 32 /\ (copen (um_chan m) tr -> acceptable (um_chan m) tr m j -> um_len m <= 4064)
  | CvAssoc h => 1 <= e_chan h <= 32
  | CvSend m => 1 <= e_chan (em_hdr m) <= 32 /\ (copen (e_chan (em_hdr m)) tr -> sendable (e_chan (em_hdr m)) tr m -> em_len m <= 4060)
  | CvRelInd _ ch => 1 <= ch <= 32
  end.
Theorem C79_defined_partial ini v tr e : creach ini v tr -> cev_ok e -> csrv_step v e <> None <-> runs_ok tr e.
Proof.
  intros HR He. destruct (cev_chan e) as [uid|] eqn:Ec.
  - assert (D : 1 <= uid <= 32 \/ ~ 1 <= uid <= 32) by lia. destruct D as [D|D].
    2:{ rewrite (out_fact _ _ _ HR _ _ He Ec D). destruct e; cbn in *; try discriminate; injection Ec as <-; split; try congruence; tauto. }
    destruct e as [m j rnd t1 t2|m j now|m j|h|m|conn ch]; cbn [cev_chan runs_ok] in Ec |- *; try discriminate; injection Ec as <-.
    + destruct (close_fact _ _ _ HR m j now He D) as (A & B & C). destruct (copen_dec (um_chan m) tr) as [Ho|Ho].
      * destruct (acceptable_dec (um_chan m) tr m j) as [Ha|Ha].
        -- specialize (C Ho Ha). destruct (close_dec m j) as [r b| | |].
           ++ destruct C as [v' ->]. split; [intros _|congruence]. split; [auto|]. intros _ _. split; discriminate.
           ++ destruct C as [v' ->]. split; [intros _|congruence]. split; [auto|]. intros _ _. split; discriminate.
           ++ rewrite C. split; [congruence|]. intros (_ & X). destruct (X Ho Ha). congruence.
           ++ rewrite C. split; [congruence|]. intros (_ & X). destruct (X Ho Ha). congruence.
        -- destruct (B Ho Ha) as [v' ->]. split; [intros _|congruence]. split; [auto|]. intros; tauto.
      * destruct (A Ho) as [v' ->]. split; [intros _|congruence]. split; [auto|]. intros; tauto.
    + destruct (msg_fact _ _ _ HR m j He D) as (A & B & C & C'). destruct (copen_dec (um_chan m) tr) as [Ho|Ho].
      * destruct (acceptable_dec (um_chan m) tr m j) as [Ha|Ha].
        -- assert (L : um_len m <= 4064 \/ 4064 < um_len m) by lia. destruct L as [L|L].
           ++ destruct (C Ho Ha L) as [v' ->]. split; [auto|congruence].
           ++ rewrite (C' Ho Ha L). split; [congruence|]. intros (_ & X). specialize (X Ho Ha). lia.
        -- destruct (B Ho Ha) as [v' ->]. split; [intros _|congruence]. split; [auto|]. intros; tauto.
      * destruct (A Ho) as [v' ->]. split; [intros _|congruence]. split; [auto|]. intros; tauto.
    + destruct (assoc_fact _ _ _ HR h He D) as [v' ->]. split; [auto|congruence].
    + destruct (send_fact _ _ _ HR m He D) as (A & B & C). destruct (copen_dec (e_chan (em_hdr m)) tr) as [Ho|Ho].
      * destruct (sendable_dec (e_chan (em_hdr m)) tr m) as [Ha|Ha].
        -- assert (L : em_len m <= 4060 \/ 4060 < em_len m) by lia. destruct L as [L|L].
           ++ destruct (B Ho Ha L) as [v' ->]. split; [auto|congruence].
           ++ rewrite (C Ho Ha L). split; [congruence|]. intros (_ & X). specialize (X Ho Ha). lia.
        -- destruct (A (or_intror Ha)) as [v' ->]. split; [intros _|congruence]. split; [auto|]. intros; tauto.
      * destruct (A (or_introl Ho)) as [v' ->]. split; [intros _|congruence]. split; [auto|]. intros; tauto.
    + destruct (relind_fact _ _ _ HR conn ch He D) as (A & B). destruct (copen_dec ch tr) as [Ho|Ho].
      * destruct (A Ho) as [v' ->]. split; [auto|congruence]. * destruct (B Ho) as [v' ->]. split; [auto|congruence].
  - destruct e as [m j rnd t1 t2|m j now|m j|h|m|conn ch]; try discriminate Ec. cbn [runs_ok].
    destruct (open_fact _ _ _ HR _ _ _ _ _ He) as [(v2 & os2 & -> & X)|(E & Hl & Hd)].
    + split; [intros _ Hl|congruence]. destruct X as [Hf|t Hf Ht Hno Hd|t q r b Hf Ht Hno Hd]; [lia| |]; rewrite Hd; split; discriminate.
    + rewrite E. split; [congruence|]. intros X. destruct (X Hl). destruct Hd; congruence.
Qed.
(** An open request with a string longer than the buffer, and one with an unknown node id encoding. *)
Definition long_opn : umsg := mkUm 1 0 2 4 [0; 32; 0; 0].
Definition odd_opn : umsg := mkUm 1 0 2 21 (repeat 0 20 ++ [6]).
Theorem C79_refuted :
  ~ (forall ini v tr m j rnd t1 t2, creach ini v tr -> cev_ok (CvOpen m j rnd t1 t2) -> csrv_step v (CvOpen m j rnd t1 t2) <> None).
Proof.
  intros H.
  destruct (couts_reach ini0 _ [] [] ini0_ok eq_refl eq_refl eq_refl) as [v0 R]. cbn [combine] in R.
  assert (He : cev_ok (CvOpen long_opn jz 0 0 0)) by (apply cev1; vm_compute; reflexivity).
  apply (H _ _ _ _ _ _ _ _ R He).
  destruct (C77_outcome_partial _ _ _ _ _ _ _ _ R He) as (_ & X).
  assert (D : dec_open_msg (mkSdu 0 (Z.to_nat (um_len long_opn)) (octets long_opn jz)) = DOob) by (vm_compute; reflexivity).
  rewrite D in X. apply X. clear. cbn. lia.
Qed.
Example C79_case : dec_open_msg (mkSdu 0 21 (octets odd_opn jz)) = DAbort /\ dec_open_msg (mkSdu 0 4 (octets (bad_opn 1) jz)) = DThrow /\
  exists v, creach ini0 v (combine [open_ev 1 10 1 5] [opened 1 1 1 1 5]) /\
    runs_ok (combine [open_ev 1 10 1 5] [opened 1 1 1 1 5]) (CvMsg (umsg_of 1 1 5 11 2 body4) jz).
Proof.
  split; [vm_compute; reflexivity|]. split; [vm_compute; reflexivity|].
  destruct (couts_reach ini0 _ [open_ev 1 10 1 5] [opened 1 1 1 1 5] ini0_ok ltac:(vm_compute; reflexivity) eq_refl ltac:(vm_compute; reflexivity)) as [v R].
  exists v. split; [exact R|]. cbn. lia.
Qed.

(** * C80 *)

(** An acceptable close request that decodes is answered once, then the connection is asked to go and the channel is closed. *)
Theorem C80_close_partial ini v tr m j now r b : creach ini v tr -> cev_ok (CvClose m j now) -> 1 <= um_chan m <= 32 -> copen (um_chan m) tr ->
  acceptable (um_chan m) tr m j -> close_dec m j = DOk r b ->
  let uid := um_chan m in
  let os := [CTx KClo (rsp_of (um_conn m) uid (close_rsp (ctoken uid tr) ((cstart uid tr + Z.of_nat (csent uid tr)) mod 4294967296)
            (le_at 8 (octets m j)) (rq_handle (cq_hdr (co_msg r))) now)); CRelReq (um_conn m); CFree uid] in
  exists v', csrv_step v (CvClose m j now) = Some (v', os) /\ ~ copen uid (tr ++ [(CvClose m j now, os)]).
Proof.
  intros HR He Hu Ho Ha Hd uid os. destruct (close_fact _ _ _ HR m j now He Hu) as (_ & _ & C). specialize (C Ho Ha). rewrite Hd in C.
  destruct C as [v' C]. exists v'. split; [exact C|]. unfold copen in *. rewrite cview_snoc. unfold cview_next, os, ccount. cbn [taken].
  cbn [filter is_cfree is_tx]. unfold uid in *. rewrite !Z.eqb_refl. cbn [rsp_of um_chan length w_opens w_frees]. clear - Ho. lia.
Qed.
(** One that is not acceptable closes the channel without an answer. *)
Theorem C80_reject ini v tr m j now : creach ini v tr -> cev_ok (CvClose m j now) -> 1 <= um_chan m <= 32 -> copen (um_chan m) tr ->
  ~ acceptable (um_chan m) tr m j -> exists v', csrv_step v (CvClose m j now) = Some (v', [CRelReq (um_conn m); CFree (um_chan m)]).
Proof. intros HR He Hu Ho Ha. destruct (close_fact _ _ _ HR m j now He Hu) as (_ & B & _). exact (B Ho Ha). Qed.
(** Type id, then a null token, time, handle and diagnostics mask, then a string of length -2. *)
Definition bad_close_body : list Z := [1; 0; 196; 1] ++ [0; 0] ++ repeat 0 16 ++ [254; 255; 255; 255].
(** One that is acceptable but does not decode leaves the channel open and is not answered. *)
Theorem C80_refuted :
  ~ (forall ini v tr m j now v' os, creach ini v tr -> cev_ok (CvClose m j now) -> copen (um_chan m) tr ->
       csrv_step v (CvClose m j now) = Some (v', os) -> ~ copen (um_chan m) (tr ++ [(CvClose m j now, os)])).
Proof.
  intros H.
  destruct (couts_last ini0 [open_ev 7 41 1 99] [opened 7 1 1 1 99] (CvClose (umsg_of 7 1 99 42 5 bad_close_body) jz 0) [CThrow] ini0_ok) as (v & v' & R & He & Hs & _);
    [vm_compute; reflexivity|reflexivity|vm_compute; reflexivity|].
  apply (H _ _ _ _ _ _ _ _ R He) in Hs; [apply Hs; reflexivity|reflexivity].
Qed.
Example C80_case : exists v v', creach ini0 v (combine [open_ev 7 41 1 99] [opened 7 1 1 1 99]) /\
  csrv_step v (CvClose (umsg_of 7 1 99 42 5 [1; 0; 196; 1]) jz 0) =
    Some (v', [CTx KClo (rsp_of 7 1 (close_rsp 99 2 5 0 0)); CRelReq 7; CFree 1]).
Proof.
  destruct (couts_last ini0 [open_ev 7 41 1 99] [opened 7 1 1 1 99] (CvClose (umsg_of 7 1 99 42 5 [1; 0; 196; 1]) jz 0)
    [CTx KClo (rsp_of 7 1 (close_rsp 99 2 5 0 0)); CRelReq 7; CFree 1] ini0_ok) as (v & v' & R & He & Hs & _);
    [vm_compute; reflexivity|reflexivity|vm_compute; reflexivity|].
  exists v, v'. auto.
Qed.

Print Assumptions C45_accepted_partial.
Print Assumptions C45_closes.
Print Assumptions C45_once_partial.
Print Assumptions C45_refuted.
Print Assumptions C46_numbers_partial.
Print Assumptions C46_start_partial.
Print Assumptions C46_refuted.
Print Assumptions C47_named_partial.
Print Assumptions C47_refuted.
Print Assumptions C48_channel.
Print Assumptions C48_refused.
Print Assumptions C49_attached.
Print Assumptions C75_fresh_partial.
Print Assumptions C75_refuted.
Print Assumptions C76_account_partial.
Print Assumptions C76_refuted.
Print Assumptions C77_outcome_partial.
Print Assumptions C77_refuted.
Print Assumptions C78_body_partial.
Print Assumptions C78_refuted.
Print Assumptions C79_defined_partial.
Print Assumptions C79_refuted.
Print Assumptions C80_close_partial.
Print Assumptions C80_reject.
Print Assumptions C80_refuted.
