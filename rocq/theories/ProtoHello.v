(** What the server class does with the hello of its peer, exactly. *)
From Verif Require Import Base ModbusCodecSpec ModbusClientModel ModbusClientProofs UaCodecModel UaCodecSpec UaCodecProofs UaTcpModel UaTcpSpec UaTcpProofs UaTcpFacts
  ProtoConnModel ProtoConnSpec ProtoConnProofs ProtoConnFacts UaHello UaNet UaChanProofs.
Local Open Scope Z_scope.

Lemma has_octets_iff p n a b c : (3 <= n)%nat -> (3 <= length p)%nat -> (has_octets p [a; b; c] = true <-> firstn 3 (firstn n p) = [a; b; c]).
Proof.
  intros H L. rewrite firstn_firstn. replace (Nat.min 3 n) with 3%nat by lia. do 3 (destruct p as [|? p]; [cbn in L; lia|]).
  cbn [has_octets firstn]. rewrite !andb_true_iff, !Z.eqb_eq. split; [intros [[-> ->] ->]; reflexivity|intros E; injection E as -> -> ->; auto].
Qed.

Lemma hello_read c r w bs wr us m : J c Trying r -> X c w false -> p_st c = PsShake -> bytes_ok bs -> p_link c = Some true -> ~ In KClose us ->
  m = firstn pktLen (w ++ bs) -> (32 <= length m)%nat -> (length w <= 1024)%nat ->
  let bad := le_at 4 m = Z.of_nat (length m) /\ firstn 3 m = [72; 69; 76] in
  match p_step RServer (PvData (RxBytes bs) wr us) c with
  | None => bad /\ 4064 < url_len m
  | Some (_, _, true) => bad /\ url_len m < -1
  | Some (_, _, false) => ~ (bad /\ (4064 < url_len m \/ url_len m < -1))
  end.
Proof.
  intros HJ HX Est Hbs Hk N -> H32 Hw. pose proof pktLen_Z as PZ. set (m := firstn pktLen (w ++ bs)) in *. cbv zeta.
  unfold J in HJ. rewrite Est in HJ. destruct HJ as (_ & Ht & _).
  destruct (read_exact (mkT UConn (p_timer c) (p_link c) (p_rx c) None) bs w) as (p & Lp & Bp & Pp & Er);
    [exact (x_len _ _ _ HX)|exact (x_bytes _ _ _ HX)|exact (x_rx _ _ _ HX (or_introl Est))|exact (x_shake _ _ _ HX Est eq_refl)|exact Hk|exact Hbs|fold m; lia|exact Hw|]. fold m in Pp, Er. cbv zeta in Er.
  cbn [p_step]. rewrite Est. unfold p_receive. rewrite Er. cbn [z_rx t_rx].
  set (c1 := y_rx c (mkSdu 0 (length m) p)).
  destruct (Z.ltb_spec (Z.of_nat (length m)) (le_at 4 m)) as [H1|H1]; [cbn [pskip]; intros ((B & _) & _); lia|].
  destruct (Z.eqb_spec (Z.of_nat (length m)) (le_at 4 m)) as [H2|H2].
  2:{ destruct (fail_defined RServer us NError c1) as (c' & os & E); [unfold c1; cbn; congruence..|exact N|]. unfold p_fail. rewrite E. intros ((B & _) & _); lia. }
  unfold p_shake. cbv zeta. unfold c1 at 1 2 3. cbn [y_rx p_rx k_tail k_pkt k_head]. rewrite skipn_O.
  assert (EU : url_len p = url_len m) by (unfold url_len; rewrite <- Pp, le_at_prefix by lia; reflexivity).
  pose proof (has_octets_iff p (length m) 72 69 76 ltac:(lia) ltac:(lia)) as HO. rewrite Pp in HO.
  destruct (has_octets p [72; 69; 76]).
  2:{ destruct (fail_defined RServer us NError c1) as (c' & os & E); [unfold c1; cbn; congruence..|exact N|]. unfold p_fail. rewrite E. intros ((_ & B) & _). apply HO in B. discriminate B. }
  assert (HM : firstn 3 m = [72; 69; 76]) by now apply HO. unfold c1 at 1. cbn [y_rx p_rx].
  pose proof (hello_at p (length m) Bp ltac:(lia)) as HA. rewrite EU, Lp, PZ in HA.
  destruct (dec_hello_msg (mkSdu 0 (length m) p)) as [x b| | |].
  - unfold p_send_enc. rewrite ackp_eq. unfold p_send. fold c1.
    replace (p_link (y_rx c1 b)) with (Some true) by (rewrite <- Hk; reflexivity).
    destruct wr as [n|].
    + destruct (up_defined RServer us (y_rx c1 b)) as (c' & os & E); [unfold c1; cbn; congruence..|exact N|]. unfold pseq, pemit. rewrite E. lia.
    + destruct (fail_defined RServer us NError (y_rx c1 b)) as (c' & os & E); [unfold c1; cbn; congruence..|exact N|]. unfold p_fail. rewrite E. lia.
  - cbn [pthrow]. auto.
  - contradiction.
  - split; [auto|lia].
Qed.

(** Whatever was received: only a whole hello is decoded. *)
Lemma hello_only c r w bs wr us m : J c Trying r -> X c w false -> p_st c = PsShake -> bytes_ok bs -> p_link c = Some true -> ~ In KClose us ->
  m = firstn pktLen (w ++ bs) ->
  (exists c' os, p_step RServer (PvData (RxBytes bs) wr us) c = Some (c', os, false)) \/
  (length w <= 1024)%nat /\ (8 <= length m)%nat /\ le_at 4 m = Z.of_nat (length m) /\ firstn 3 m = [72; 69; 76].
Proof.
  intros HJ HX Est Hbs Hk N ->. pose proof pktLen_Z as PZ. set (m := firstn pktLen (w ++ bs)) in *.
  unfold J in HJ. rewrite Est in HJ. destruct HJ as (_ & Ht & _).
  assert (F : forall b, exists c' os, p_fail (p_calls RServer us) (y_rx c b) = Some (c', os, false)).
  { intros b. apply fail_defined; cbn; congruence. }
  pose proof (x_rx _ _ _ HX (or_introl Est)) as (R1 & _).
  destruct (le_lt_dec (length w) 1024) as [Hw|Hw].
  2:{ left. cbn [p_step]. rewrite Est. unfold p_receive, u_receive. cbn [t_rx]. destruct (Z.ltb_spec 1024 (Z.of_nat (k_head (p_rx c)))) as [_|B]; [apply F|].
      rewrite R1, firstn_length in B. lia. }
  destruct (le_lt_dec 8 (length m)) as [H8|H8].
  2:{ left. assert (L : (length w + length bs < 8)%nat) by (unfold m in H8; rewrite firstn_length, app_length in H8; lia).
      assert (Ew : length (firstn pktLen w) = length w) by (rewrite firstn_length; lia).
      cbn [p_step]. rewrite Est. unfold p_receive. erewrite (read_more (mkT UConn (p_timer c) (p_link c) (p_rx c) None) _ _ (Some UrNoerror) bs eq_refl Hk); [eexists _, _; reflexivity|..]; cbn [t_rx].
      - lia.
      - rewrite (x_len _ _ _ HX). lia.
      - reflexivity.
      - cbv zeta. cbn [k_head]. destruct (Z.ltb_spec (Z.of_nat (k_head (p_rx c) + length bs)) 8); [reflexivity|lia]. }
  destruct (read_exact (mkT UConn (p_timer c) (p_link c) (p_rx c) None) bs w) as (p & Lp & Bp & Pp & Er);
    [exact (x_len _ _ _ HX)|exact (x_bytes _ _ _ HX)|exact (x_rx _ _ _ HX (or_introl Est))|exact (x_shake _ _ _ HX Est eq_refl)|exact Hk|exact Hbs|fold m; lia|exact Hw|]. fold m in Pp, Er. cbv zeta in Er.
  cbn [p_step]. rewrite Est. unfold p_receive. rewrite Er. cbn [z_rx t_rx].
  destruct (Z.ltb_spec (Z.of_nat (length m)) (le_at 4 m)) as [H1|H1]; [left; eexists _, _; reflexivity|].
  destruct (Z.eqb_spec (Z.of_nat (length m)) (le_at 4 m)) as [H2|H2]; [|left; apply F].
  pose proof (has_octets_iff p (length m) 72 69 76 ltac:(lia) ltac:(lia)) as HO. rewrite Pp in HO.
  unfold p_shake. cbv zeta. cbn [y_rx p_rx k_tail k_pkt k_head]. rewrite skipn_O.
  destruct (has_octets p [72; 69; 76]); [|left; apply F]. right. split; [exact Hw|]. split; [exact H8|]. split; [auto|]. now apply HO.
Qed.

(** The three outcomes of a read during the handshake. *)
Lemma hello_exact b0 c tr bs w us m : preach RServer b0 c tr -> well_mannered tr -> all_dial tr -> phases Idle (pouts tr) = Some Trying ->
  running tr = Some 1000000 -> threw tr = false -> bytes_ok bs -> p_enabled c (PvData (RxBytes bs) w us) = true -> ~ In KClose us ->
  m = firstn (Z.to_nat 4096) (unread tr ++ bs) ->
  let whole := (length (unread tr) <= 1024)%nat /\ (8 <= length m)%nat /\ le_at 4 m = Z.of_nat (length m) /\ firstn 3 m = [72; 69; 76] in
  let r := p_step RServer (PvData (RxBytes bs) w us) c in
  (~ whole -> exists c' os, r = Some (c', os, false)) /\
  ((32 <= length m)%nat ->
     (r = None <-> whole /\ 4064 < le_at 28 m < 2147483648) /\
     ((exists c' os, r = Some (c', os, true)) <-> whole /\ 2147483648 <= le_at 28 m < 4294967295)).
Proof.
  intros R W D E Er Th Hbs En N Hm. cbv zeta. destruct (reach_inv _ _ _ _ R W) as (ph & E' & HJ & HX & HA). rewrite E in E'. injection E' as <-.
  rewrite Th in HX. specialize (HA D). assert (EP : Z.to_nat 4096 = pktLen) by (pose proof pktLen_Z; lia). rewrite EP in Hm.
  assert (Est : p_st c = PsShake).
  { unfold J in HJ. unfold A, connectTimeout in HA. rewrite Er in HJ. destruct (p_st c); [destruct HJ as [B _]; discriminate B|destruct HJ as (_ & HJ & _); congruence|reflexivity|destruct HJ as [B _]; discriminate B]. }
  assert (Hl : p_link c = Some true) by (cbn in En; destruct (p_link c) as [[]|]; congruence).
  pose proof (hello_only c _ _ bs w us m HJ HX Est Hbs Hl N Hm) as HO. split; [tauto|]. intros H32.
  assert (Bm : bytes_ok m).
  { rewrite Hm. pose proof (x_rx _ _ _ HX (or_introl Est)) as (_ & R2 & _). rewrite firstn_app. unfold bytes_ok. apply Forall_app. split; [|now apply firstn_bytes].
    rewrite <- R2. apply firstn_bytes. exact (x_bytes _ _ _ HX). }
  pose proof (le_at_bound 28 m Bm) as U. unfold is_u32 in U.
  destruct (le_lt_dec (length (unread tr)) 1024) as [Hw|Hw].
  2:{ destruct HO as [(c' & os & ->)|(B & _)]; [|lia]. split; (split; [|intros ((B & _) & _); lia]); [discriminate|intros (? & ? & B); discriminate B]. }
  pose proof (hello_read c _ _ bs w us m HJ HX Est Hbs Hl N Hm H32 Hw) as HR. cbv zeta in HR.
  assert (EU : (4064 < url_len m <-> 4064 < le_at 28 m < 2147483648) /\ (url_len m < -1 <-> 2147483648 <= le_at 28 m < 4294967295)).
  { unfold url_len. destruct (Z.ltb_spec (le_at 28 m) 2147483648); lia. }
  destruct EU as [EU1 EU2]. rewrite <- EU1, <- EU2. assert (H8 : (8 <= length m)%nat) by lia.
  destruct (p_step RServer (PvData (RxBytes bs) w us) c) as [[[c' os] []]|].
  - split; split; [discriminate|intros (_ & B); lia| |intros _; eauto]. intros _. tauto.
  - split; split; [discriminate|tauto|intros (? & ? & B); discriminate B|tauto].
  - split; split; [tauto|reflexivity|intros (? & ? & B); discriminate B|intros (_ & B); lia].
Qed.
