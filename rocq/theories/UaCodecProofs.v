(** Proofs about the OPC UA codec: every encoder appends the octets of the specification, every
    decoder inverts them. *)
From Verif Require Import Base TimeProofs ModbusCodecSpec UaCodecModel UaCodecSpec.
Local Open Scope Z_scope.

Lemma skipn_skipn' {A} (l : list A) n m : skipn m (skipn n l) = skipn (n + m) l.
Proof. revert l. induction n as [|n IH]; intros [|x l]; cbn [skipn Nat.add]; auto; now rewrite !skipn_nil. Qed.

(** ** Writing *)
Definition put (b : sdu) (l : list Z) : sdu :=
  mkSdu (k_tail b) (k_head b + length l) (firstn (k_head b) (k_pkt b) ++ l ++ skipn (k_head b + length l) (k_pkt b)).
Definition fits (b : sdu) (l : list Z) : bool := (k_head b + length l <=? length (k_pkt b))%nat.
Definition hok (b : sdu) : Prop := (k_head b <= length (k_pkt b))%nat.
Definition Wr (e : wr) (l : list Z) : Prop := forall b, hok b -> e b = if fits b l then Some (put b l) else None.

Lemma put_len b l : hok b -> fits b l = true -> length (k_pkt (put b l)) = length (k_pkt b).
Proof.
  unfold fits, put, hok. intros H F. apply Nat.leb_le in F. cbn [k_pkt].
  rewrite !app_length, firstn_length, skipn_length. lia.
Qed.
Lemma put_hok b l : hok b -> fits b l = true -> hok (put b l).
Proof. intros H F. unfold hok. rewrite put_len by auto. unfold fits in F. apply Nat.leb_le in F. cbn. lia. Qed.
Lemma put_app b l1 l2 : hok b -> fits b l1 = true -> put (put b l1) l2 = put b (l1 ++ l2).
Proof.
  unfold hok, fits. intros H F. apply Nat.leb_le in F. unfold put. cbn [k_head k_pkt k_tail]. rewrite app_length, Nat.add_assoc. f_equal.
  assert (L : length (firstn (k_head b) (k_pkt b) ++ l1) = (k_head b + length l1)%nat).
  { rewrite app_length, firstn_length. lia. }
  rewrite (app_assoc (firstn (k_head b) (k_pkt b)) l1).
  rewrite firstn_app, L, Nat.sub_diag, firstn_O, app_nil_r. rewrite firstn_all2 by lia.
  rewrite skipn_app, L. rewrite skipn_all2 by lia. cbn [app].
  replace (k_head b + length l1 + length l2 - (k_head b + length l1))%nat with (length l2) by lia.
  rewrite skipn_skipn'. rewrite <- !app_assoc. try (do 4 f_equal; lia).
Qed.
Lemma fits_app b l1 l2 : hok b -> fits b (l1 ++ l2) = fits b l1 && (if fits b l1 then fits (put b l1) l2 else true).
Proof.
  intros H. destruct (fits b l1) eqn:F; cbn [andb].
  - unfold fits at 2. rewrite put_len by auto. unfold put, fits in *. cbn [k_head]. rewrite app_length. f_equal. lia.
  - unfold fits in *. apply Nat.leb_gt in F. apply Nat.leb_gt. rewrite app_length. lia.
Qed.
Lemma Wr_seq e1 e2 l1 l2 : Wr e1 l1 -> Wr e2 l2 -> Wr (e1 ;; e2) (l1 ++ l2).
Proof.
  intros H1 H2 b Hb. unfold seq2. rewrite H1 by auto. rewrite fits_app by auto.
  destruct (fits b l1) eqn:F; cbn [andb]; [|reflexivity].
  rewrite H2 by now apply put_hok. now rewrite put_app.
Qed.
Lemma put_nil b : hok b -> put b [] = b.
Proof.
  intros H. unfold put. destruct b as [t h p]. cbn [k_head k_tail k_pkt length app]. rewrite Nat.add_0_r. f_equal. apply firstn_skipn.
Qed.
Lemma Wr_nop : Wr nop [].
Proof.
  intros b Hb. unfold nop. rewrite put_nil by auto. unfold fits, hok in *. cbn [length]. rewrite Nat.add_0_r.
  apply Nat.leb_le in Hb. now rewrite Hb.
Qed.
Lemma upd_splice (p : list Z) h v : (h < length p)%nat -> upd p h v = firstn h p ++ v :: skipn (h + 1) p.
Proof.
  revert p. induction h as [|h IH]; intros [|x p] H; cbn in H; try lia; cbn; [reflexivity|]. f_equal. apply IH. lia.
Qed.
Lemma Wr_write v : Wr (write v) [u8 v].
Proof.
  intros b Hb. unfold write, fits. cbn [length].
  destruct (Nat.ltb_spec (k_head b) (length (k_pkt b))); destruct (Nat.leb_spec (k_head b + 1) (length (k_pkt b))); try lia; [|reflexivity].
  unfold put. cbn [length app]. rewrite upd_splice by auto. f_equal. f_equal. lia.
Qed.

Lemma Wr_writes e l : Wr e l -> writes e l.
Proof.
  intros H b (_ & _ & Hb). unfold Wr, fits in H. rewrite H by (unfold hok; lia).
  destruct (k_head b + length l <=? length (k_pkt b))%nat; [|reflexivity].
  exists (put b l). split; [reflexivity|]. repeat split.
Qed.

(** ** Reading *)
Definition Rd {A} (d : rd A) (l : list Z) (x : A) : Prop := reads d l x.
Lemma holds_iff b i l : holds b i l <-> exists r, skipn i (k_pkt b) = l ++ r.
Proof.
  unfold holds. split.
  - intros H. exists (skipn (length l) (skipn i (k_pkt b))). rewrite <- H at 1. now rewrite firstn_skipn.
  - intros [r ->]. rewrite firstn_app, Nat.sub_diag, firstn_all. cbn. apply app_nil_r.
Qed.
Lemma skipn_plus {A} (l : list A) n m : skipn (n + m) l = skipn m (skipn n l).
Proof. now rewrite skipn_skipn'. Qed.
Lemma holds_app b i l1 l2 : holds b i (l1 ++ l2) <-> holds b i l1 /\ holds b (i + length l1) l2.
Proof.
  rewrite !holds_iff. split.
  - intros [r H]. rewrite <- app_assoc in H. split; [eauto|]. exists r. rewrite skipn_plus, H.
    rewrite skipn_app, Nat.sub_diag, skipn_all. reflexivity.
  - intros [[r H] [r2 H2]]. exists r2. rewrite skipn_plus, H in H2.
    rewrite skipn_app, Nat.sub_diag, skipn_all in H2. cbn in H2. subst r. now rewrite H, app_assoc.
Qed.
Lemma Rd_bind {A B} (m : rd A) (k : A -> rd B) l1 l2 a x : Rd m l1 a -> Rd (k a) l2 x -> Rd (bind m k) (l1 ++ l2) x.
Proof.
  intros H1 H2 b Hb. apply holds_app in Hb as [Ha Hc]. unfold bind. rewrite H1 by exact Ha.
  rewrite H2 by exact Hc. cbn [k_tail k_head k_pkt]. rewrite app_length, Nat.add_assoc. reflexivity.
Qed.
Lemma Rd_ret {A} (x : A) : Rd (ret x) [] x.
Proof. intros [t h p] _. unfold ret. cbn. now rewrite Nat.add_0_r. Qed.
Lemma Rd_last {A B} (m : rd A) (f : A -> B) l a : Rd m l a -> Rd (bind m (fun v => ret (f v))) l (f a).
Proof. intros H. rewrite <- (app_nil_r l). eapply Rd_bind; [exact H|apply Rd_ret]. Qed.
Lemma Rd_read v : Rd read [v] v.
Proof.
  intros b Hb. apply holds_iff in Hb as [r Hr]. unfold read.
  assert (E : nth_error (k_pkt b) (k_tail b) = Some v).
  { revert Hr. generalize (k_tail b), (k_pkt b). intros n. induction n as [|n IH]; intros [|y q] Hr; cbn in *; try discriminate; [congruence|auto]. }
  rewrite E. cbn [length]. do 2 f_equal. lia.
Qed.
Lemma Rd_cons {B} (k : Z -> rd B) v l x : Rd (k v) l x -> Rd (bind read k) (v :: l) x.
Proof. intros H. change (v :: l) with ([v] ++ l). eapply Rd_bind; [apply Rd_read|exact H]. Qed.
Lemma Rd_ext {A} (d d' : rd A) l x : (forall b, d b = d' b) -> Rd d' l x -> Rd d l x.
Proof. intros E H b Hb. rewrite E. now apply H. Qed.

(** ** Integers *)
Lemma shr_div v n : 0 <= n -> Z.shiftr v n = v / 2 ^ n.
Proof. intros. now apply Z.shiftr_div_pow2. Qed.
Lemma le2 v : le_bytes 2 v = [u8 v; u8 (Z.shiftr v 8)].
Proof. cbn [le_bytes]. unfold u8. now rewrite shr_div by lia. Qed.
Lemma le4 v : le_bytes 4 v = [u8 v; u8 (Z.shiftr v 8); u8 (Z.shiftr v 16); u8 (Z.shiftr v 24)].
Proof.
  cbn [le_bytes]. unfold u8. rewrite !shr_div by lia. rewrite !Z.div_div by lia. reflexivity.
Qed.
Lemma le8 v : le_bytes 8 v = [u8 v; u8 (Z.shiftr v 8); u8 (Z.shiftr v 16); u8 (Z.shiftr v 24);
  u8 (Z.shiftr v 32); u8 (Z.shiftr v 40); u8 (Z.shiftr v 48); u8 (Z.shiftr v 56)].
Proof.
  cbn [le_bytes]. unfold u8. rewrite !shr_div by lia. rewrite !Z.div_div by lia. reflexivity.
Qed.
Lemma W_1 v : Wr (write v) (s_1 v).
Proof. apply Wr_write. Qed.
Lemma W_bool v : Wr (enc_bool v) (s_bool v).
Proof. unfold enc_bool, s_bool. destruct v; [apply (Wr_write 1)|apply (Wr_write 0)]. Qed.
Lemma W_16 v : Wr (enc_16 v) (s_2 v).
Proof. unfold s_2. rewrite le2. apply (Wr_seq _ _ [_] [_]); apply Wr_write. Qed.
Lemma W_32 v : Wr (enc_32 v) (s_4 v).
Proof. unfold s_4. rewrite le4. unfold enc_32. repeat (apply (Wr_seq _ _ [_] (_ :: _)); [apply Wr_write|]). apply Wr_write. Qed.
Lemma W_64 v : Wr (enc_64 v) (s_8 v).
Proof. unfold s_8. rewrite le8. unfold enc_64. repeat (apply (Wr_seq _ _ [_] (_ :: _)); [apply Wr_write|]). apply Wr_write. Qed.

Ltac slia := unfold s8, s16, s32, s64, u8, u16, u32, u64 in *;
  repeat match goal with |- context [?a <? ?b] => destruct (Z.ltb_spec a b) end; lia.
Lemma shl_or hi lo n : 0 <= n -> 0 <= lo < 2 ^ n -> Z.lor (Z.shiftl hi n) lo = lo + 2 ^ n * hi.
Proof. intros Hn Hl. rewrite Z.shiftl_mul_pow2 by lia. rewrite lor_disjoint by auto. lia. Qed.
Lemma or16_val l h : is_byte l -> or16 l h = l + 256 * h.
Proof. intros H. unfold or16. rewrite shl_or; [reflexivity|lia|exact H]. Qed.
Lemma or_step x n c : 0 <= n -> is_byte c -> Z.lor (Z.shiftl x (n + 8)) (Z.shiftl c n) = Z.shiftl (c + 256 * x) n.
Proof.
  intros Hn Hc. replace (n + 8) with (8 + n) by lia. rewrite <- Z.shiftl_shiftl by lia. rewrite <- Z.shiftl_lor. f_equal.
  rewrite shl_or; [reflexivity|lia|exact Hc].
Qed.
Lemma or32_val a b c d : is_byte a -> is_byte b -> is_byte c -> or32 a b c d = le_val [a; b; c; d].
Proof.
  intros. unfold or32. rewrite (or_step d 16) by (auto; lia). rewrite (or_step _ 8) by (auto; lia).
  rewrite shl_or by (try lia; assumption). cbn [le_val]. lia.
Qed.
Lemma or64_val a b c d e f g h : is_byte a -> is_byte b -> is_byte c -> is_byte d -> is_byte e -> is_byte f -> is_byte g ->
  or64 a b c d e f g h = le_val [a; b; c; d; e; f; g; h].
Proof.
  intros. unfold or64. rewrite (or_step h 48) by (auto; lia). rewrite (or_step _ 40) by (auto; lia). rewrite (or_step _ 32) by (auto; lia).
  rewrite (or_step _ 24) by (auto; lia). rewrite (or_step _ 16) by (auto; lia). rewrite (or_step _ 8) by (auto; lia).
  rewrite shl_or by (try lia; assumption). cbn [le_val]. lia.
Qed.
Lemma u8_byte v : is_byte (u8 v).
Proof. unfold is_byte, u8. apply Z.mod_pos_bound. lia. Qed.
#[global] Hint Resolve u8_byte : bytes.
Lemma R_rd32 v : Rd rd32 (s_4 v) (u32 v).
Proof.
  unfold s_4. replace (u32 v) with (u32 (le_val (le_bytes 4 v))).
  - rewrite le4. unfold rd32. repeat apply Rd_cons. rewrite <- or32_val by auto with bytes. apply Rd_ret.
  - rewrite le_val_bytes. unfold u32. change (256 ^ Z.of_nat 4) with 4294967296. now rewrite Z.mod_mod by lia.
Qed.
Lemma R_rd64 v : Rd rd64 (s_8 v) (u64 v).
Proof.
  unfold s_8. replace (u64 v) with (u64 (le_val (le_bytes 8 v))).
  - rewrite le8. unfold rd64. repeat apply Rd_cons. rewrite <- or64_val by auto with bytes. apply Rd_ret.
  - rewrite le_val_bytes. unfold u64. change (256 ^ Z.of_nat 8) with 18446744073709551616. now rewrite Z.mod_mod by lia.
Qed.
Lemma R_u16 v : is_u16 v -> Rd dec_u16 (s_2 v) v.
Proof.
  unfold is_u16. intros H. unfold s_2. rewrite le2. unfold dec_u16. apply Rd_cons, Rd_cons. rewrite or16_val by auto with bytes.
  unfold u8. rewrite shr_div by lia. change (2 ^ 8) with 256.
  replace (u16 _) with v by (unfold u16; lia). apply Rd_ret.
Qed.
Lemma R_i16 v : is_i16 v -> Rd dec_i16 (s_2 v) v.
Proof.
  unfold is_i16. intros H. unfold s_2. rewrite le2. unfold dec_i16. apply Rd_cons, Rd_cons. rewrite or16_val by auto with bytes.
  unfold u8. rewrite shr_div by lia. change (2 ^ 8) with 256.
  replace (s16 _) with v by slia. apply Rd_ret.
Qed.
Lemma R_u32 v : is_u32 v -> Rd dec_u32 (s_4 v) v.
Proof. unfold is_u32. intros H. replace v with (u32 v) at 2 by (unfold u32; lia). apply R_rd32. Qed.
Lemma R_i32 v : is_i32 v -> Rd dec_i32 (s_4 v) v.
Proof. unfold is_i32. intros H. replace v with (s32 (u32 v)) at 2 by slia. apply Rd_last, R_rd32. Qed.
Lemma R_u64 v : is_u64 v -> Rd dec_u64 (s_8 v) v.
Proof. unfold is_u64. intros H. replace v with (u64 v) at 2 by (unfold u64; lia). apply R_rd64. Qed.
Lemma R_i64 v : is_i64 v -> Rd dec_i64 (s_8 v) v.
Proof. unfold is_i64. intros H. replace v with (s64 (u64 v)) at 2 by slia. apply Rd_last, R_rd64. Qed.
Lemma R_byte v : is_byte v -> Rd dec_byte (s_1 v) v.
Proof. unfold is_byte. intros H. unfold s_1. cbn [le_bytes]. replace (v mod 256) with v by lia. apply Rd_read. Qed.
Lemma R_sbyte v : is_i8 v -> Rd dec_sbyte (s_1 v) v.
Proof.
  unfold is_i8. intros H. unfold s_1. cbn [le_bytes]. unfold dec_sbyte. apply Rd_cons.
  replace (s8 _) with v by slia. apply Rd_ret.
Qed.
Lemma R_bool v : Rd dec_bool (s_bool v) v.
Proof. unfold s_bool, dec_bool. apply Rd_cons. destruct v; apply Rd_ret. Qed.

(** ** Strings *)
Lemma W_n l : bytes_ok l -> Wr (wrn l) l.
Proof.
  induction l as [|x l IH]; intros H; [apply Wr_nop|]. apply Forall_cons_iff in H as [Hx H].
  cbn [wrn]. apply (Wr_seq _ _ [x] l); [|auto]. unfold is_byte in Hx. replace [x] with [u8 x] by (f_equal; unfold u8; lia). apply Wr_write.
Qed.
Lemma R_n l : Rd (rdn (length l)) l l.
Proof. induction l as [|x l IH]; cbn [length rdn]; [apply Rd_ret|]. apply Rd_cons. now apply (Rd_last _ (cons x)). Qed.
Lemma len_s32 (n : nat) : Z.of_nat n < 2147483648 -> s32 (Z.of_nat n) = Z.of_nat n.
Proof. intros. slia. Qed.
Lemma W_str s : wf_str s -> Wr (enc_string s) (s_str s).
Proof.
  intros [Hb Hl]. unfold enc_string. rewrite len_s32 by auto. destruct s as [|x s]; [apply W_32|].
  unfold s_str. set (y := x :: s) in *. destruct (Z.eqb_spec (Z.of_nat (length y)) 0); [subst y; cbn [length] in *; lia|].
  apply Wr_seq; [apply W_32|]. rewrite Nat2Z.id, firstn_all. now apply W_n.
Qed.
Lemma R_strlen s (k : Z -> rd ustr) : wf_str s -> s <> [] -> (forall n, n = Z.of_nat (length s) -> k n = rdn (length s)) ->
  Rd (bind dec_i32 k) (s_str s) s.
Proof.
  intros [Hb Hl] Hn Hk. unfold s_str. destruct s as [|x s]; [congruence|]. eapply Rd_bind; [apply R_i32; unfold is_i32; lia|].
  rewrite Hk by reflexivity. apply R_n.
Qed.
Lemma R_str s : wf_str s -> Rd (dec_string []) (s_str s) s.
Proof.
  intros H. unfold dec_string. destruct s as [|x s].
  - unfold s_str. rewrite <- (app_nil_r (s_4 (-1))). eapply Rd_bind; [apply R_i32; unfold is_i32; lia|]. apply Rd_ret.
  - apply R_strlen; [auto|discriminate|]. intros n ->. destruct (Z.eqb_spec (Z.of_nat (length (x :: s))) (-1)); [lia|].
    destruct (Z.ltb_spec (Z.of_nat (length (x :: s))) 0); [lia|]. now rewrite Nat2Z.id.
Qed.
Lemma R_bstr old s : wf_str s -> Rd (dec_bstring old) (s_str s) s.
Proof.
  intros H. unfold dec_bstring. destruct s as [|x s].
  - unfold s_str. rewrite <- (app_nil_r (s_4 (-1))). eapply Rd_bind; [apply R_i32; unfold is_i32; lia|]. apply Rd_ret.
  - apply R_strlen; [auto|discriminate|]. intros n ->. destruct (Z.eqb_spec (Z.of_nat (length (x :: s))) (-1)); [lia|].
    destruct (Z.ltb_spec (Z.of_nat (length (x :: s))) 0); [lia|]. now rewrite Nat2Z.id.
Qed.
Lemma W_bstr s : wf_str s -> Wr (enc_bstring s) (s_str s).
Proof. apply W_str. Qed.

(** ** Arrays *)
Lemma W_each {A} (e : A -> wr) (s : A -> list Z) (P : A -> Prop) l : (forall x, P x -> Wr (e x) (s x)) -> Forall P l ->
  Wr (enc_each e l) (concat (map s l)).
Proof.
  intros H HF. induction HF as [|x l Hx HF IH]; [apply Wr_nop|]. cbn [enc_each map concat]. apply Wr_seq; auto.
Qed.
Lemma W_arr {A} (e : A -> wr) (s : A -> list Z) (P : A -> Prop) l : (forall x, P x -> Wr (e x) (s x)) -> wf_arr P l ->
  Wr (enc_arr e l) (s_arr s l).
Proof.
  intros H [HF Hl]. unfold enc_arr, s_arr. rewrite len_s32 by auto. apply Wr_seq; [apply W_32|]. now apply W_each with P.
Qed.
Lemma R_each {A} (d : A -> rd A) (s : A -> list Z) (P : A -> Prop) l : forall old, length old = length l ->
  (forall o x, In o old -> P x -> Rd (d o) (s x) x) -> Forall P l -> Rd (dec_each d old) (concat (map s l)) l.
Proof.
  induction l as [|x l IH]; intros [|o old] Hn H HF; try discriminate; [apply Rd_ret|].
  apply Forall_cons_iff in HF as [Hx HF]. cbn [dec_each map concat]. eapply Rd_bind; [apply H; [left; auto|auto]|].
  apply (Rd_last _ (cons x)). apply IH; [now injection Hn|intros; apply H; [right; auto|auto]|auto].
Qed.
Lemma R_arr {A} (d0 : A) (d : A -> rd A) (s : A -> list Z) (P : A -> Prop) l : (forall x, P x -> Rd (d d0) (s x) x) -> wf_arr P l ->
  Rd (dec_arr d0 d []) (s_arr s l) l.
Proof.
  intros H [HF Hl]. unfold dec_arr, s_arr. eapply Rd_bind; [apply R_i32; unfold is_i32; lia|].
  destruct (Z.ltb_spec (Z.of_nat (length l)) 0); [lia|]. rewrite Nat2Z.id.
  unfold resize. rewrite firstn_nil. cbn [app length]. rewrite Nat.sub_0_r.
  apply R_each with P; [apply repeat_length| |auto]. intros o x Ho Hx. apply repeat_spec in Ho as ->. auto.
Qed.

Create HintDb wrt. Create HintDb rdt.
#[global] Hint Resolve W_1 W_bool W_16 W_32 W_64 W_str W_bstr : wrt.
#[global] Hint Resolve R_u16 R_i16 R_u32 R_i32 R_u64 R_i64 R_byte R_sbyte R_bool R_str R_bstr : rdt.

(** ** Guid, NodeId *)
Lemma W_guid g : wf_guid g -> Wr (enc_guid g) (s_guid g).
Proof.
  intros (H1 & H2 & H3 & H4 & H5). unfold enc_guid, s_guid. repeat (apply Wr_seq; [auto with wrt|]).
  replace (g4 g) with (concat (map s_1 (g4 g))) at 2.
  - apply W_each with is_byte; auto. intros. apply W_1.
  - clear H5. induction H4 as [|x l Hx HF IH]; [reflexivity|]. cbn [map concat]. rewrite IH. unfold s_1. cbn. unfold is_byte in Hx.
    f_equal. lia.
Qed.
Lemma cat1 l : bytes_ok l -> concat (map s_1 l) = l.
Proof. induction 1 as [|x l Hx HF IH]; [reflexivity|]. cbn [map concat]. rewrite IH. unfold s_1, is_byte in *. cbn. f_equal. lia. Qed.
Lemma R_bytes old l : length old = length l -> bytes_ok l -> Rd (dec_each (fresh dec_byte) old) l l.
Proof. intros Hl H. rewrite <- (cat1 l H) at 1. apply R_each with is_byte; auto. intros o x _ Hx. now apply R_byte. Qed.
Lemma W_bytes l : bytes_ok l -> Wr (enc_each enc_byte l) l.
Proof. intros H. rewrite <- (cat1 l H) at 2. apply W_each with is_byte; auto. intros. apply W_1. Qed.
Lemma R_guid g : wf_guid g -> Rd (dec_guid guid0) (s_guid g) g.
Proof.
  destruct g as [a b c d]. intros (H1 & H2 & H3 & H4 & H5). cbn [g1 g2 g3 g4] in *. unfold dec_guid, s_guid. cbn [g1 g2 g3 g4].
  repeat (eapply Rd_bind; [solve [auto with rdt]|]). apply (Rd_last _ (mkGuid a b c)). apply R_bytes; auto.
Qed.
Lemma W_nodeid n : wf_nodeid n -> Wr (enc_nodeid n) (s_nodeid n).
Proof.
  destruct n as [ns v]. intros [Hn Hv]. cbn [n_ns n_val] in *. unfold enc_nodeid, s_nodeid. cbn [n_ns n_val].
  unfold is_u16 in Hn.
  destruct v as [i|s|g|s].
  - unfold is_u32 in Hv. destruct (Z.eqb_spec ns 0); destruct (Z.ltb_spec i 256); cbn [andb].
    1:{ change [0; i] with ([0] ++ [i]). apply Wr_seq; [apply (Wr_write 0)|]. replace [i] with [u8 (u8 i)] by (f_equal; unfold u8; lia). apply Wr_write. }
    all: destruct (Z.ltb_spec ns 256); destruct (Z.ltb_spec i 65536); cbn [andb]; try lia.
    all: try (change ([2] ++ s_2 ns ++ s_4 i) with (s_1 2 ++ s_2 ns ++ s_4 i); repeat apply Wr_seq; auto with wrt; fail).
    all: change ([1; ns] ++ s_2 i) with ([1] ++ [ns] ++ s_2 i); apply Wr_seq; [apply (Wr_write 1)|]; apply Wr_seq;
      [replace [ns] with [u8 (u8 ns)] by (f_equal; unfold u8; lia); apply Wr_write|];
      replace (u16 i) with i by (unfold u16; lia); apply W_16.
  - apply Wr_seq; [apply (Wr_write 3)|]. apply Wr_seq; auto with wrt.
  - apply Wr_seq; [apply (Wr_write 4)|]. apply Wr_seq; auto using W_guid with wrt.
  - apply Wr_seq; [apply (Wr_write 5)|]. apply Wr_seq; auto with wrt.
Qed.
#[global] Hint Resolve W_guid W_nodeid : wrt.
#[global] Hint Resolve R_guid : rdt.
(** The first octet of a node id may carry flags above the low four bits. *)
Definition flagged (f : Z) (l : list Z) : list Z := match l with m :: r => (m + f) :: r | [] => [] end.
Lemma R_nodeid_f f n : wf_nodeid n -> f = 0 \/ f = 64 \/ f = 128 \/ f = 192 -> Rd (dec_nodeid nodeid0) (flagged f (s_nodeid n)) n.
Proof.
  destruct n as [ns v]. intros [Hn Hv] Hf. cbn [n_ns n_val] in *. unfold dec_nodeid, s_nodeid. cbn [n_ns n_val].
  destruct v as [i|s|g|s].
  - unfold is_u16, is_u32 in *. destruct (Z.eqb_spec ns 0); destruct (Z.ltb_spec i 256); cbn [andb].
    1:{ cbn [flagged]. apply Rd_cons. replace (Z.land (0 + f) 15) with 0 by (destruct Hf as [-> | [-> | [-> | ->]]]; reflexivity).
        subst ns. apply (Rd_last _ (fun i => mkNid 0 (IdNum i))). apply Rd_read. }
    all: destruct (Z.ltb_spec ns 256); destruct (Z.ltb_spec i 65536); cbn [andb app flagged]; try lia.
    all: apply Rd_cons.
    all: try (replace (Z.land (2 + f) 15) with 2 by (destruct Hf as [-> | [-> | [-> | ->]]]; reflexivity);
      eapply Rd_bind; [apply R_u16; unfold is_u16; lia|]; apply (Rd_last _ (fun i => mkNid ns (IdNum i))); apply R_u32; unfold is_u32; lia).
    all: replace (Z.land (1 + f) 15) with 1 by (destruct Hf as [-> | [-> | [-> | ->]]]; reflexivity); unfold dec_byte; apply Rd_cons;
      apply (Rd_last _ (fun i => mkNid ns (IdNum i))); apply R_u16; unfold is_u16; lia.
  - cbn [app flagged]. apply Rd_cons. replace (Z.land (3 + f) 15) with 3 by (destruct Hf as [-> | [-> | [-> | ->]]]; reflexivity).
    eapply Rd_bind; [auto with rdt|]. apply (Rd_last _ (fun i => mkNid ns (IdStr i))). auto with rdt.
  - cbn [app flagged]. apply Rd_cons. replace (Z.land (4 + f) 15) with 4 by (destruct Hf as [-> | [-> | [-> | ->]]]; reflexivity).
    eapply Rd_bind; [auto with rdt|]. apply (Rd_last _ (fun i => mkNid ns (IdGuid i))). auto with rdt.
  - cbn [app flagged]. apply Rd_cons. replace (Z.land (5 + f) 15) with 5 by (destruct Hf as [-> | [-> | [-> | ->]]]; reflexivity).
    eapply Rd_bind; [auto with rdt|]. apply (Rd_last _ (fun i => mkNid ns (IdOpq i))). auto with rdt.
Qed.
Lemma flagged0 l : flagged 0 l = l.
Proof. destruct l as [|x l]; cbn; [reflexivity|]. f_equal. lia. Qed.
Lemma R_nodeid n : wf_nodeid n -> Rd (dec_nodeid nodeid0) (s_nodeid n) n.
Proof. intros H. rewrite <- (flagged0 (s_nodeid n)). apply R_nodeid_f; auto. Qed.
#[global] Hint Resolve R_nodeid : rdt.

(** ** Optional fields *)
Lemma W_when {A} (e : A -> wr) (s : A -> list Z) (P : A -> Prop) (c : bool) o : (forall x, P x -> Wr (e x) (s x)) -> wf_opt P o ->
  c = is_some o -> Wr (when_e c e o) (s_opt s o).
Proof. intros H Ho ->. destruct o; cbn; [now apply H|apply Wr_nop]. Qed.
Lemma R_when {A} (d : rd A) (s : A -> list Z) (P : A -> Prop) (c : bool) o : (forall x, P x -> Rd d (s x) x) -> wf_opt P o ->
  c = is_some o -> Rd (when_d c d None) (s_opt s o) o.
Proof. intros H Ho ->. destruct o as [x|]; cbn; [|apply Rd_ret]. apply (Rd_last _ Some). now apply H. Qed.
Lemma W_mask l : (length l <= 8)%nat -> mask_of 0 l = bits l -> is_byte (bits l) -> Wr (enc_byte (mask_of 0 l)) [bits l].
Proof. intros _ -> H. unfold is_byte in H. replace [bits l] with [u8 (bits l)] by (f_equal; unfold u8; lia). apply Wr_write. Qed.
Lemma mask7 a b c d e f g : mask_of 0 [a; b; c; d; e; f; g] = bits [a; b; c; d; e; f; g].
Proof. destruct a, b, c, d, e, f, g; reflexivity. Qed.
Lemma mask6 a b c d e f : mask_of 0 [a; b; c; d; e; f] = bits [a; b; c; d; e; f].
Proof. destruct a, b, c, d, e, f; reflexivity. Qed.
Lemma bits7 a b c d e f g : let m := bits [a; b; c; d; e; f; g] in
  is_byte m /\ has m 1 = a /\ has m 2 = b /\ has m 4 = c /\ has m 8 = d /\ has m 16 = e /\ has m 32 = f /\ has m 64 = g.
Proof. destruct a, b, c, d, e, f, g; vm_compute; repeat split; discriminate. Qed.
Lemma bits6 a b c d e f : let m := bits [a; b; c; d; e; f] in
  is_byte m /\ has m 1 = a /\ has m 2 = b /\ has m 4 = c /\ has m 8 = d /\ has m 16 = e /\ has m 32 = f.
Proof. destruct a, b, c, d, e, f; vm_compute; repeat split; discriminate. Qed.
Lemma bits2 a b : let m := bits [a; b] in mask_of 0 [a; b] = m /\ is_byte m /\ has m 1 = a /\ has m 2 = b.
Proof. destruct a, b; vm_compute; repeat split; discriminate. Qed.
Lemma W_oct m : is_byte m -> Wr (enc_byte m) [m].
Proof. unfold is_byte. intros H. replace [m] with [u8 m] by (f_equal; unfold u8; lia). apply Wr_write. Qed.

(** ** DiagnosticInfo *)
Lemma diag_ind2 (P : diag -> Prop) :
  (forall a b c d e f g, (forall x, g = Some x -> P x) -> P (mkDiag a b c d e f g)) -> forall v, P v.
Proof.
  intros H. fix IH 1. intros [a b c d e f g]. apply H. intros x E. destruct g as [y|]; [|discriminate]. injection E as <-. apply IH.
Qed.
Lemma W_diag v : wf_diag v -> Wr (enc_diag v) (s_diag v).
Proof.
  induction v as [a b c d e f g IH] using diag_ind2. intros (Ha & Hb & Hc & Hd & He & Hf & Hg).
  cbn [enc_diag s_diag diag_mask]. rewrite mask7.
  destruct (bits7 (is_some a) (is_some b) (is_some c) (is_some d) (is_some e) (is_some f) (is_some g)) as (M & M1 & M2 & M4 & M8 & M16 & M32 & M64).
  apply Wr_seq; [now apply W_oct|].
  apply Wr_seq; [apply W_when with is_i32; auto with wrt|]. apply Wr_seq; [apply W_when with is_i32; auto with wrt|].
  apply Wr_seq; [apply W_when with is_i32; auto with wrt|]. apply Wr_seq; [apply W_when with is_i32; auto with wrt|].
  apply Wr_seq; [apply W_when with wf_str; auto with wrt|]. apply Wr_seq; [apply W_when with is_u32; auto|].
  { intros. apply W_32. }
  rewrite M64. destruct g as [x|]; cbn [is_some]; [now apply IH|apply Wr_nop].
Qed.
(** The fuel never matters. *)
Lemma read_some b v b' : read b = DOk v b' -> nth_error (k_pkt b) (k_tail b) = Some v /\ b' = mkSdu (S (k_tail b)) (k_head b) (k_pkt b).
Proof. unfold read. destruct (nth_error (k_pkt b) (k_tail b)); [|discriminate]. intros E. injection E as <- <-. auto. Qed.

(** Decoders only move the read cursor, forward. *)
Definition adv (b b' : sdu) : Prop := (k_tail b <= k_tail b')%nat /\ k_head b' = k_head b /\ k_pkt b' = k_pkt b.
Definition Adv {A} (d : rd A) : Prop := forall b x b', d b = DOk x b' -> adv b b'.
Lemma adv_refl b : adv b b.
Proof. unfold adv. auto. Qed.
Lemma adv_trans a b c : adv a b -> adv b c -> adv a c.
Proof. unfold adv. intros (? & ? & ?) (? & ? & ?). repeat split; try congruence. lia. Qed.
Lemma Adv_ret {A} (x : A) : Adv (ret x).
Proof. intros b y b' E. injection E as <- <-. apply adv_refl. Qed.
Lemma Adv_bind {A B} (m : rd A) (k : A -> rd B) : Adv m -> (forall a, Adv (k a)) -> Adv (bind m k).
Proof.
  intros Hm Hk b x b' E. unfold bind in E. destruct (m b) as [a b1| | |] eqn:Em; try discriminate.
  eapply adv_trans; [eapply Hm; eauto|eapply Hk; eauto].
Qed.
Lemma Adv_read : Adv read.
Proof. intros b x b' E. apply read_some in E as [_ ->]. repeat split. cbn. lia. Qed.
Lemma Adv_peek : Adv peek.
Proof. intros b x b' E. unfold peek in E. destruct (nth_error (k_pkt b) (k_tail b)); [|discriminate]. injection E as <- <-. apply adv_refl. Qed.
Create HintDb adv.
#[global] Hint Resolve Adv_ret Adv_read Adv_peek : adv.
Ltac advt := repeat (apply Adv_bind; [|intros]); auto with adv.
Lemma Adv_bool : Adv dec_bool. Proof. unfold dec_bool. advt. Qed.
Lemma Adv_sbyte : Adv dec_sbyte. Proof. unfold dec_sbyte. advt. Qed.
Lemma Adv_byte : Adv dec_byte. Proof. apply Adv_read. Qed.
Lemma Adv_u16 : Adv dec_u16. Proof. unfold dec_u16. advt. Qed.
Lemma Adv_i16 : Adv dec_i16. Proof. unfold dec_i16. advt. Qed.
Lemma Adv_32 : Adv rd32. Proof. unfold rd32. advt. Qed.
Lemma Adv_64 : Adv rd64. Proof. unfold rd64. advt. Qed.
#[global] Hint Resolve Adv_bool Adv_sbyte Adv_byte Adv_u16 Adv_i16 Adv_32 Adv_64 : adv.
Lemma Adv_i32 : Adv dec_i32. Proof. unfold dec_i32. advt. Qed.
Lemma Adv_u32 : Adv dec_u32. Proof. apply Adv_32. Qed.
Lemma Adv_i64 : Adv dec_i64. Proof. unfold dec_i64. advt. Qed.
Lemma Adv_u64 : Adv dec_u64. Proof. apply Adv_64. Qed.
Lemma Adv_status : Adv dec_status. Proof. apply Adv_32. Qed.
Lemma Adv_datetime : Adv dec_datetime. Proof. apply Adv_i64. Qed.
Lemma Adv_float : Adv dec_float. Proof. apply Adv_32. Qed.
Lemma Adv_double : Adv dec_double. Proof. apply Adv_64. Qed.
Lemma Adv_throw {A} : Adv (fun _ => @DThrow A). Proof. intros b x b' E. discriminate. Qed.
Lemma Adv_abort {A} : Adv (fun _ => @DAbort A). Proof. intros b x b' E. discriminate. Qed.
Lemma Adv_oob {A} : Adv (fun _ => @DOob A). Proof. intros b x b' E. discriminate. Qed.
Lemma Adv_n n : Adv (rdn n). Proof. induction n; cbn [rdn]; advt. Qed.
#[global] Hint Resolve Adv_i32 Adv_u32 Adv_i64 Adv_u64 Adv_status Adv_datetime Adv_float Adv_double Adv_throw Adv_abort Adv_oob Adv_n : adv.
Lemma Adv_if {A} (c : bool) (x y : rd A) : Adv x -> Adv y -> Adv (if c then x else y).
Proof. destruct c; auto. Qed.
Ltac advt2 := repeat first [solve [auto with adv]|apply Adv_bind; [|intros]|apply Adv_if].
Lemma Adv_str o : Adv (dec_string o). Proof. unfold dec_string. advt2. Qed.
Lemma Adv_bstr o : Adv (dec_bstring o). Proof. unfold dec_bstring. advt2. Qed.
Lemma Adv_opt {A} (d : rd A) : Adv d -> Adv (dec_opt d). Proof. intros. unfold dec_opt. advt2. Qed.
Lemma Adv_when {A} c (d : rd A) o : Adv d -> Adv (when_d c d o). Proof. intros. unfold when_d. apply Adv_if; [now apply Adv_opt|auto with adv]. Qed.
Lemma Adv_each {A} (d : A -> rd A) l : (forall x, Adv (d x)) -> Adv (dec_each d l).
Proof. intros H. induction l; cbn [dec_each]; advt2. Qed.
Lemma Adv_fresh {A} (d : rd A) x : Adv d -> Adv (fresh d x). Proof. auto. Qed.
Lemma Adv_arr {A} d0 (d : A -> rd A) o : (forall x, Adv (d x)) -> Adv (dec_arr d0 d o).
Proof. intros H. unfold dec_arr. advt2. now apply Adv_each. Qed.
#[global] Hint Resolve Adv_str Adv_bstr Adv_opt Adv_when Adv_each Adv_fresh Adv_arr : adv.
Lemma Adv_guid o : Adv (dec_guid o). Proof. unfold dec_guid. advt2. Qed.
#[global] Hint Resolve Adv_guid : adv.
Lemma Adv_nodeid o : Adv (dec_nodeid o).
Proof.
  unfold dec_nodeid. apply Adv_bind; [auto with adv|]. intros e.
  destruct (Z.land e 15) as [|p|p]; [advt2| |auto with adv].
  destruct p as [p|p|]; [destruct p as [p|p|]|destruct p as [p|p|]|]; try (destruct p); advt2.
Qed.
#[global] Hint Resolve Adv_nodeid : adv.
Lemma Adv_diag_f n : forall o, Adv (dec_diag_f n o).
Proof. induction n as [|n IH]; intros [a b c d e f g]; cbn [dec_diag_f]; [auto with adv|]. advt2. Qed.
Lemma Adv_diag o : Adv (dec_diag o).
Proof. intros b x b' E. unfold dec_diag in E. eapply Adv_diag_f; eauto. Qed.
#[global] Hint Resolve Adv_diag : adv.
Lemma Adv_qname o : Adv (dec_qname o). Proof. unfold dec_qname. advt2. Qed.
Lemma Adv_ltext o : Adv (dec_ltext o). Proof. unfold dec_ltext. advt2. Qed.
Lemma Adv_xml o : Adv (dec_xml o). Proof. unfold dec_xml. advt2. Qed.
Lemma Adv_xnodeid o : Adv (dec_xnodeid o). Proof. unfold dec_xnodeid. advt2. Qed.
Lemma Adv_extobj o : Adv (dec_extobj o). Proof. unfold dec_extobj. advt2. Qed.
#[global] Hint Resolve Adv_qname Adv_ltext Adv_xml Adv_xnodeid Adv_extobj : adv.

Lemma bind_ext_adv {A B} (m : rd A) (k k' : A -> rd B) b : (forall x b', m b = DOk x b' -> k x b' = k' x b') -> bind m k b = bind m k' b.
Proof. intros H. unfold bind. destruct (m b) eqn:E; auto. Qed.
Lemma diag_fuel n : forall n' o b, (length (k_pkt b) - k_tail b < n)%nat -> (length (k_pkt b) - k_tail b < n')%nat ->
  dec_diag_f n o b = dec_diag_f n' o b.
Proof.
  induction n as [|n IH]; intros [|n'] o b H1 H2; try lia. destruct o as [a0 b0 c0 d0 e0 f0 g0]. cbn [dec_diag_f].
  apply bind_ext_adv. intros m b1 E1. unfold dec_byte in E1. apply read_some in E1 as [N1 E1].
  assert (L : (k_tail b < length (k_pkt b))%nat) by (apply nth_error_Some; congruence).
  assert (L1 : (length (k_pkt b1) - k_tail b1 < n)%nat /\ (length (k_pkt b1) - k_tail b1 < n')%nat) by (subst b1; cbn; lia).
  clear E1 N1 L H1 H2 b.
  assert (K : forall {A} (d : rd A) (k k' : A -> rd diag) b, Adv d ->
    (length (k_pkt b) - k_tail b < n)%nat /\ (length (k_pkt b) - k_tail b < n')%nat ->
    (forall x b', (length (k_pkt b') - k_tail b' < n)%nat /\ (length (k_pkt b') - k_tail b' < n')%nat -> k x b' = k' x b') ->
    bind d k b = bind d k' b).
  { intros A d k k' b Ad Hb Hk. apply bind_ext_adv. intros x b' E. apply Hk. destruct (Ad _ _ _ E) as (T & _ & P). rewrite P. lia. }
  revert L1. generalize b1. clear b1. intros b L.
  apply K; [auto with adv|exact L|]. intros x1 b1 L1. apply K; [auto with adv|exact L1|]. intros x2 b2 L2.
  apply K; [auto with adv|exact L2|]. intros x3 b3 L3. apply K; [auto with adv|exact L3|]. intros x4 b4 L4.
  apply K; [auto with adv|exact L4|]. intros x5 b5 L5. apply K; [auto with adv|exact L5|]. intros x6 b6 L6.
  destruct (has m 64); [|reflexivity]. unfold dec_opt, bind. rewrite (IH n' diag0 b6) by lia. reflexivity.
Qed.
Lemma holds_room b i l : holds b i l -> (i + length l <= length (k_pkt b))%nat \/ l = [].
Proof.
  intros H. apply holds_iff in H as [r H]. destruct l as [|x l]; [auto|left].
  assert (E := f_equal (@length Z) H). rewrite skipn_length, app_length in E. cbn [length] in *. lia.
Qed.
Lemma R_diag_f v : wf_diag v -> forall n, (length (s_diag v) < n)%nat -> Rd (dec_diag_f n diag0) (s_diag v) v.
Proof.
  induction v as [a b c d e f g IH] using diag_ind2. intros (Ha & Hb & Hc & Hd & He & Hf & Hg) [|n] Hn; [lia|].
  cbn [s_diag] in *.
  destruct (bits7 (is_some a) (is_some b) (is_some c) (is_some d) (is_some e) (is_some f) (is_some g)) as (M & M1 & M2 & M4 & M8 & M16 & M32 & M64).
  unfold diag0. cbn [dec_diag_f]. fold diag0. apply Rd_cons.
  eapply Rd_bind; [apply R_when with is_i32; auto with rdt|]. eapply Rd_bind; [apply R_when with is_i32; auto with rdt|].
  eapply Rd_bind; [apply R_when with is_i32; auto with rdt|]. eapply Rd_bind; [apply R_when with is_i32; auto with rdt|].
  eapply Rd_bind; [apply R_when with wf_str; auto with rdt|].
  eapply Rd_bind; [apply R_when with is_u32; [intros; now apply R_u32|auto|auto]|].
  apply (Rd_last _ (mkDiag a b c d e f)). rewrite M64. destruct g as [x|]; cbn [is_some]; [|apply Rd_ret].
  apply (Rd_last _ Some). apply IH; [reflexivity|exact Hg|]. rewrite !app_length in Hn. cbn [length] in Hn. lia.
Qed.
Lemma R_diag v : wf_diag v -> Rd (dec_diag diag0) (s_diag v) v.
Proof.
  intros H b Hb. unfold dec_diag. rewrite (diag_fuel _ (S (length (s_diag v)) + S (length (k_pkt b) - k_tail b)))%nat by lia.
  apply R_diag_f; [exact H|lia|exact Hb].
Qed.
#[global] Hint Resolve W_diag : wrt.
#[global] Hint Resolve R_diag : rdt.

(** ** Names and texts *)
Lemma W_qname v : wf_qname v -> Wr (enc_qname v) (s_qname v).
Proof. intros [H1 H2]. apply Wr_seq; auto with wrt. Qed.
Lemma R_qname v : wf_qname v -> Rd (dec_qname qname0) (s_qname v) v.
Proof. destruct v as [n s]. intros [H1 H2]. cbn [qn_ns qn_name] in *. eapply Rd_bind; [now apply R_u16|]. apply (Rd_last _ (mkQn n)). now apply R_str. Qed.
Lemma ostr_nonempty o : wf_ostr o -> nonempty o = is_some o.
Proof. destruct o as [[|x s]|]; cbn; [intros [_ H]; congruence|auto|auto]. Qed.
Lemma ostr_wf o : wf_ostr o -> wf_opt wf_str o.
Proof. destruct o as [s|]; cbn; [intros [H _]; exact H|auto]. Qed.
Lemma W_ltext v : wf_ltext v -> Wr (enc_ltext v) (s_ltext v).
Proof.
  destruct v as [a b]. intros [H1 H2]. cbn in H1, H2. unfold enc_ltext, s_ltext, ltext_mask. cbn [lt_locale lt_text].
  rewrite !ostr_nonempty by auto. destruct (bits2 (is_some a) (is_some b)) as (-> & M & M1 & M2).
  apply Wr_seq; [now apply W_oct|]. apply Wr_seq.
  - apply W_when with wf_str; auto using ostr_wf with wrt. rewrite M1. now destruct a.
  - apply W_when with wf_str; auto using ostr_wf with wrt. rewrite M2. now destruct b.
Qed.
Lemma R_ltext v : wf_ltext v -> Rd (dec_ltext ltext0) (s_ltext v) v.
Proof.
  destruct v as [a b]. intros [H1 H2]. cbn in H1, H2. unfold dec_ltext, s_ltext. cbn [lt_locale lt_text ltext0].
  destruct (bits2 (is_some a) (is_some b)) as (_ & M & M1 & M2).
  apply Rd_cons. eapply Rd_bind; [apply R_when with wf_str; auto using ostr_wf with rdt|].
  apply (Rd_last _ (mkLt a)). apply R_when with wf_str; auto using ostr_wf with rdt.
Qed.
#[global] Hint Resolve W_qname W_ltext : wrt.
#[global] Hint Resolve R_qname R_ltext : rdt.

(** ** ExpandedNodeId *)
Lemma s_nodeid_cons n : exists m r, s_nodeid n = m :: r /\ 0 <= m <= 5.
Proof.
  unfold s_nodeid. destruct (n_val n) as [i|s|g|s]; [|eexists _, _; split; [reflexivity|lia]..].
  destruct ((n_ns n =? 0) && (i <? 256)); [eexists _, _; split; [reflexivity|lia]|].
  destruct ((n_ns n <? 256) && (i <? 65536)); eexists _, _; (split; [reflexivity|lia]).
Qed.
Lemma s_xnodeid_flag v : s_xnodeid v =
  flagged ((if is_some (xn_uri v) then 128 else 0) + (if is_some (xn_srv v) then 64 else 0)) (s_nodeid (xn_id v)) ++
  s_opt s_str (xn_uri v) ++ s_opt s_4 (xn_srv v).
Proof. unfold s_xnodeid. destruct (s_nodeid (xn_id v)) as [|m r]; cbn [flagged]; [reflexivity|]. f_equal. f_equal. lia. Qed.
Lemma peek_holds b v l : holds b (k_tail b) (v :: l) -> peek b = DOk v b.
Proof.
  intros H. change (v :: l) with ([v] ++ l) in H. apply holds_app in H as [H _]. pose proof (Rd_read v b H) as R.
  unfold read in R. unfold peek. destruct (nth_error (k_pkt b) (k_tail b)); [|discriminate]. now injection R as ->.
Qed.
Lemma R_xnodeid v : wf_xnodeid v -> Rd (dec_xnodeid xnodeid0) (s_xnodeid v) v.
Proof.
  destruct v as [n u i]. intros (H1 & H2 & H3). cbn [xn_id xn_uri xn_srv] in *. rewrite s_xnodeid_flag. cbn [xn_id xn_uri xn_srv].
  set (f := (if is_some u then 128 else 0) + (if is_some i then 64 else 0)).
  assert (Hf : f = 0 \/ f = 64 \/ f = 128 \/ f = 192) by (subst f; destruct (is_some u), (is_some i); auto).
  destruct (s_nodeid_cons n) as (m & r & En & Hm).
  assert (F1 : has (m + f) 128 = is_some u).
  { subst f. destruct (is_some u), (is_some i); assert (m = 0 \/ m = 1 \/ m = 2 \/ m = 3 \/ m = 4 \/ m = 5) as K by lia;
    repeat (destruct K as [->|K]; [reflexivity|]); subst m; reflexivity. }
  assert (F2 : has (m + f) 64 = is_some i).
  { subst f. destruct (is_some u), (is_some i); assert (m = 0 \/ m = 1 \/ m = 2 \/ m = 3 \/ m = 4 \/ m = 5) as K by lia;
    repeat (destruct K as [->|K]; [reflexivity|]); subst m; reflexivity. }
  intros b Hb. unfold dec_xnodeid, bind at 1. pose proof Hb as Hp. rewrite En in Hp. cbn [flagged app] in Hp.
  rewrite (peek_holds _ _ _ Hp). revert b Hb Hp.
  assert (R : Rd (do n <- dec_nodeid (xn_id xnodeid0); do u <- when_d (has (m + f) 128) (dec_string []) (xn_uri xnodeid0);
    do i <- when_d (has (m + f) 64) dec_u32 (xn_srv xnodeid0); ret (mkXn n u i)) (flagged f (s_nodeid n) ++ s_opt s_str u ++ s_opt s_4 i) (mkXn n u i)).
  { eapply Rd_bind; [now apply R_nodeid_f|]. eapply Rd_bind; [apply R_when with wf_str; auto using ostr_wf with rdt|].
    apply (Rd_last _ (mkXn n u)). apply R_when with is_u32; auto with rdt. }
  intros b Hb _. now apply R.
Qed.
Lemma plain_wf v : wf_plain v -> wf_xnodeid v.
Proof. intros (H1 & H2 & H3). unfold wf_xnodeid. rewrite H2, H3. cbn. auto. Qed.
Lemma Wr_ext e e' l : (forall b, e b = e' b) -> Wr e' l -> Wr e l.
Proof. intros E H b Hb. rewrite E. now apply H. Qed.
Lemma s_plain v : wf_plain v -> s_xnodeid v = s_nodeid (xn_id v).
Proof. intros (_ & H2 & H3). rewrite s_xnodeid_flag, H2, H3. cbn [is_some s_opt]. now rewrite flagged0, !app_nil_r. Qed.
Lemma W_plain v : wf_plain v -> Wr (enc_xnodeid v) (s_xnodeid v).
Proof.
  intros H. rewrite (s_plain v H). destruct H as (H1 & H2 & H3). apply Wr_ext with (enc_nodeid (xn_id v) ;; nop ;; nop).
  - intros b. unfold enc_xnodeid, xnodeid_mask. rewrite H2, H3. reflexivity.
  - rewrite <- (app_nil_r (s_nodeid (xn_id v))). apply Wr_seq; [now apply W_nodeid|]. apply (Wr_seq _ _ [] []); apply Wr_nop.
Qed.
Lemma R_plain v : wf_plain v -> Rd (dec_xnodeid xnodeid0) (s_xnodeid v) v.
Proof. intros H. apply R_xnodeid. now apply plain_wf. Qed.
#[global] Hint Resolve W_plain : wrt.
#[global] Hint Resolve R_plain : rdt.

(** ** ExtensionObject *)
Lemma W_extobj v : wf_extobj v -> Wr (enc_extobj v) (s_extobj v).
Proof.
  destruct v as [n s]. intros [H1 H2]. cbn in H1, H2. unfold enc_extobj, s_extobj, extobj_mask. cbn [xo_id xo_body].
  rewrite ostr_nonempty by auto. apply Wr_seq; [auto with wrt|]. destruct s as [s|]; cbn [is_some].
  - apply (Wr_seq _ _ [1] (s_str s)); [apply (Wr_write 1)|]. destruct H2 as [H2 _]. now apply W_str.
  - rewrite <- (app_nil_r [0]). apply Wr_seq; [apply (Wr_write 0)|apply Wr_nop].
Qed.
Lemma R_extobj v : wf_extobj v -> Rd (dec_extobj extobj0) (s_extobj v) v.
Proof.
  destruct v as [n s]. intros [H1 H2]. cbn in H1, H2. unfold dec_extobj, s_extobj. cbn [xo_id xo_body extobj0].
  eapply Rd_bind; [now apply R_nodeid|]. destruct s as [s|].
  - apply Rd_cons. cbn [orb Z.eqb Pos.eqb when_d]. apply (Rd_last _ (mkXo n)). apply (Rd_last _ Some). destruct H2 as [H2 _]. now apply R_bstr.
  - apply Rd_cons. apply (Rd_last _ (mkXo n)). apply Rd_ret.
Qed.
#[global] Hint Resolve W_extobj : wrt.
#[global] Hint Resolve R_extobj : rdt.

(** ** Variant *)
Lemma W_vval v : wf_vval v -> Wr (enc_vval v) (match s_vval v with _ :: r => r | [] => [] end).
Proof.
  destruct v; cbn [wf_vval enc_vval s_vval app]; intros H; auto with wrt; try apply Wr_nop;
    try (apply W_32); try (apply W_64); try (apply W_1); try (eapply W_arr; [|exact H]; intros; auto with wrt; try apply W_32; try apply W_64; try apply W_1; try apply Wr_nop).
Qed.
Lemma variant_tag v d : exists r, s_vval v = variant_mask (mkVar (Some v) d) :: r /\ is_byte (variant_mask (mkVar (Some v) d)) /\ (variant_mask (mkVar (Some v) d) =? 0) = false.
Proof. destruct v; eexists; (split; [reflexivity|split; [vm_compute; split; congruence|reflexivity]]). Qed.
Lemma W_variant v : wf_opt wf_vval (vr_val v) -> Wr (enc_variant v) (s_variant v).
Proof.
  destruct v as [[x|] d]; cbn [vr_val wf_opt]; intros H.
  - unfold enc_variant, s_variant. cbn [vr_val]. pose proof (W_vval x H) as W. destruct (variant_tag x d) as (r & E & B & N).
    rewrite E in W |- *. rewrite N. change (variant_mask (mkVar (Some x) d) :: r) with ([variant_mask (mkVar (Some x) d)] ++ r).
    apply Wr_seq; [now apply W_oct|exact W].
  - unfold enc_variant, s_variant. cbn [vr_val variant_mask]. cbn [Z.eqb]. rewrite <- (app_nil_r [0]). apply Wr_seq; [apply (Wr_write 0)|apply Wr_nop].
Qed.
Lemma R_variant v : wf_variant v -> Rd (dec_variant variant0) (s_variant v) v.
Proof.
  destruct v as [[x|] d]; intros [H Hd]; cbn [vr_val vr_dims wf_opt] in *; subst d; unfold s_variant; cbn [vr_val]; unfold dec_variant.
  2:{ change [0] with ([0] ++ []). eapply Rd_bind; [apply Rd_read|]. apply Rd_ret. }
  destruct H as [H C].
  destruct x; cbn [recoverable wf_vval] in *; try discriminate; cbn [s_vval app]; apply Rd_cons;
    cbn [Z.eqb Pos.eqb has Z.land Pos.land Pos.pred_N N.succ_pos Pos.succ Pos.Nsucc_double Pos.Ndouble Z.of_N negb vr_dims variant0 N.double N.succ_double];
    try (match goal with |- Rd (bind _ (fun v => ret (mkVar (Some (?c v)) None))) _ _ => apply (Rd_last _ (fun v => mkVar (Some (c v)) None)) end;
    auto with rdt; try (eapply R_arr; [|exact H]; intros; unfold fresh; auto with rdt); fail).
  apply Z.eqb_eq in C. subst. apply (Rd_last _ (fun v => mkVar (Some (VXml v)) None)). apply Rd_ret.
Qed.

(** ** DataValue *)
Lemma W_dvalue v : wf_dvalue v -> Wr (enc_dvalue v) (s_dvalue v).
Proof.
  destruct v as [x a b c d e]. intros (Hx & Ha & Hb & Hc & Hd & He). cbn [dv_val dv_st dv_sts dv_spico dv_vts dv_vpico] in *.
  unfold enc_dvalue, s_dvalue, dvalue_mask. cbn [dv_val dv_st dv_sts dv_spico dv_vts dv_vpico]. rewrite mask6.
  destruct (bits6 (is_some (vr_val x)) (is_some a) (is_some b) (is_some c) (is_some d) (is_some e)) as (M & M1 & M2 & M4 & M8 & M16 & M32).
  apply Wr_seq; [now apply W_oct|]. apply Wr_seq.
  { rewrite M1. destruct x as [[x|] dd]; cbn [vr_val is_some s_opt]; [|apply Wr_nop]. apply (W_variant (mkVar (Some x) dd)). apply Hx. }
  apply Wr_seq; [apply W_when with is_u32; auto; intros; apply W_32|].
  apply Wr_seq; [apply W_when with is_i64; auto; intros; apply W_64|].
  apply Wr_seq; [apply W_when with is_u16; auto; intros; apply W_16|].
  apply Wr_seq; [apply W_when with is_i64; auto; intros; apply W_64|].
  apply W_when with is_u16; auto; intros; apply W_16.
Qed.
Lemma R_datetime v : is_i64 v -> Rd dec_datetime (s_8 v) v.
Proof. apply R_i64. Qed.
Lemma R_status v : is_u32 v -> Rd dec_status (s_4 v) v.
Proof. apply R_u32. Qed.
Lemma R_double v : is_u64 v -> Rd dec_double (s_8 v) v.
Proof. apply R_u64. Qed.
Lemma R_float v : is_u32 v -> Rd dec_float (s_4 v) v.
Proof. apply R_u32. Qed.
Lemma W_datetime v : Wr (enc_datetime v) (s_8 v).
Proof. apply W_64. Qed.
Lemma W_double v : Wr (enc_double v) (s_8 v).
Proof. apply W_64. Qed.
Lemma W_status v : Wr (enc_status v) (s_4 v).
Proof. apply W_32. Qed.
Lemma W_byte v : Wr (enc_byte v) (s_1 v).
Proof. apply W_1. Qed.
#[global] Hint Resolve W_datetime W_double W_status W_byte : wrt.
#[global] Hint Resolve R_datetime R_double R_float R_status : rdt.
Lemma R_dvalue v : wf_dvalue v -> Rd (dec_dvalue dvalue0) (s_dvalue v) v.
Proof.
  destruct v as [x a b c d e]. intros (Hx & Ha & Hb & Hc & Hd & He). cbn [dv_val dv_st dv_sts dv_spico dv_vts dv_vpico] in *.
  unfold dec_dvalue, s_dvalue. cbn [dv_val dv_st dv_sts dv_spico dv_vts dv_vpico dvalue0].
  destruct (bits6 (is_some (vr_val x)) (is_some a) (is_some b) (is_some c) (is_some d) (is_some e)) as (M & M1 & M2 & M4 & M8 & M16 & M32).
  apply Rd_cons. eapply Rd_bind.
  { rewrite M1. instantiate (1 := x). destruct x as [[x|] dd]; cbn [vr_val is_some s_opt].
    - apply (R_variant (mkVar (Some x) dd)). exact Hx.
    - destruct Hx as [_ E]. cbn in E. subst dd. apply Rd_ret. }
  eapply Rd_bind; [apply R_when with is_u32; auto with rdt|]. eapply Rd_bind; [apply R_when with is_i64; auto with rdt|].
  eapply Rd_bind; [apply R_when with is_u16; auto with rdt|]. eapply Rd_bind; [apply R_when with is_i64; auto with rdt|].
  apply (Rd_last _ (mkDv x a b c d)). apply R_when with is_u16; auto with rdt.
Qed.
#[global] Hint Resolve W_dvalue : wrt.
#[global] Hint Resolve R_dvalue : rdt.

(** ** Arrays of the element types in use *)
Lemma W_arr_str l : wf_arr wf_str l -> Wr (enc_arr enc_string l) (s_arr s_str l).
Proof. intros H. eapply W_arr; [|exact H]. auto with wrt. Qed.
Lemma R_arr_str l : wf_arr wf_str l -> Rd (dec_arr [] dec_string []) (s_arr s_str l) l.
Proof. intros H. eapply R_arr; [|exact H]. auto with rdt. Qed.
Lemma W_arr_byte l : wf_arr is_byte l -> Wr (enc_arr enc_byte l) (s_arr s_1 l).
Proof. intros H. eapply W_arr; [|exact H]. auto with wrt. Qed.
Lemma R_arr_byte l : wf_arr is_byte l -> Rd (dec_arr 0 (fresh dec_byte) []) (s_arr s_1 l) l.
Proof. intros H. eapply R_arr; [|exact H]. unfold fresh. auto with rdt. Qed.
Lemma W_arr_status l : wf_arr is_u32 l -> Wr (enc_arr enc_status l) (s_arr s_4 l).
Proof. intros H. eapply W_arr; [|exact H]. auto with wrt. Qed.
Lemma R_arr_status l : wf_arr is_u32 l -> Rd (dec_arr 0 (fresh dec_status) []) (s_arr s_4 l) l.
Proof. intros H. eapply R_arr; [|exact H]. unfold fresh. auto with rdt. Qed.
Lemma W_arr_diag l : wf_arr wf_diag l -> Wr (enc_arr enc_diag l) (s_arr s_diag l).
Proof. intros H. eapply W_arr; [|exact H]. auto with wrt. Qed.
Lemma R_arr_diag l : wf_arr wf_diag l -> Rd (dec_arr diag0 dec_diag []) (s_arr s_diag l) l.
Proof. intros H. eapply R_arr; [|exact H]. auto with rdt. Qed.
Lemma W_arr_dvalue l : wf_arr wf_dvalue l -> Wr (enc_arr enc_dvalue l) (s_arr s_dvalue l).
Proof. intros H. eapply W_arr; [|exact H]. auto with wrt. Qed.
Lemma R_arr_dvalue l : wf_arr wf_dvalue l -> Rd (dec_arr dvalue0 dec_dvalue []) (s_arr s_dvalue l) l.
Proof. intros H. eapply R_arr; [|exact H]. auto with rdt. Qed.
#[global] Hint Resolve W_arr_str W_arr_byte W_arr_status W_arr_diag W_arr_dvalue W_bytes : wrt.
#[global] Hint Resolve R_arr_str R_arr_byte R_arr_status R_arr_diag R_arr_dvalue R_bytes : rdt.

(** ** Messages *)
Ltac wmsg := repeat match goal with H : _ /\ _ |- _ => destruct H end;
  repeat first [solve [auto with wrt]|apply Wr_seq].
Ltac rlast := match goal with
  | |- Rd (bind _ (fun v => ret (@?f v))) _ _ => apply (Rd_last _ f) end.
Ltac rmsg := repeat match goal with H : _ /\ _ |- _ => destruct H end;
  repeat first [rlast; solve [auto with rdt]|eapply Rd_bind; [solve [auto with rdt]|cbv beta]].

Lemma W_mhdr v : wf_mhdr v -> Wr (enc_mhdr v) (s_mhdr v).
Proof. unfold wf_mhdr, enc_mhdr, s_mhdr. intros. wmsg. Qed.
Lemma R_mhdr v : wf_mhdr v -> Rd (dec_mhdr mhdr0) (s_mhdr v) v.
Proof.
  destruct v as [a b c]. unfold wf_mhdr, dec_mhdr, s_mhdr. cbn [mh_type mh_final mh_size mhdr0]. intros ((H & L) & H0 & H1).
  eapply Rd_bind; [apply R_bytes; auto|]. rmsg.
Qed.
Lemma W_uhdr v : wf_uhdr v -> Wr (enc_uhdr v) (s_uhdr v).
Proof. unfold wf_uhdr, enc_uhdr, s_uhdr. intros. wmsg. Qed.
Lemma R_uhdr v : wf_uhdr v -> Rd (dec_uhdr uhdr0) (s_uhdr v) v.
Proof.
  destruct v as [a b c d]. unfold wf_uhdr, dec_uhdr, s_uhdr. cbn [uh_type uh_final uh_size uh_chan uhdr0]. intros ((H & L) & H0 & H1).
  eapply Rd_bind; [apply R_bytes; auto|]. rmsg.
Qed.
Lemma W_hello v : wf_hello v -> Wr (enc_hello v) (s_hello v).
Proof. unfold wf_hello, enc_hello, s_hello. intros. wmsg. Qed.
Lemma R_hello v : wf_hello v -> Rd (dec_hello hello0) (s_hello v) v.
Proof. destruct v as [x0 x1 x2 x3 x4 x5]. unfold wf_hello, dec_hello, s_hello. cbn [he_ver he_rcv he_snd he_max he_chunk he_url hello0]. intros. rmsg. Qed.
#[global] Hint Resolve W_hello : wrt.
#[global] Hint Resolve R_hello : rdt.
Lemma W_ack v : wf_ack v -> Wr (enc_ack v) (s_ack v).
Proof. unfold wf_ack, enc_ack, s_ack. intros. wmsg. Qed.
Lemma R_ack v : wf_ack v -> Rd dec_ack (s_ack v) v.
Proof. destruct v as [x0 x1 x2 x3 x4]. unfold wf_ack, dec_ack, s_ack. cbn [ak_ver ak_rcv ak_snd ak_max ak_chunk]. intros. rmsg. Qed.
#[global] Hint Resolve W_ack : wrt.
#[global] Hint Resolve R_ack : rdt.
Lemma W_errmsg v : wf_errmsg v -> Wr (enc_errmsg v) (s_errmsg v).
Proof. unfold wf_errmsg, enc_errmsg, s_errmsg. intros. wmsg. Qed.
Lemma R_errmsg v : wf_errmsg v -> Rd (dec_errmsg errmsg0) (s_errmsg v) v.
Proof. destruct v as [x0 x1]. unfold wf_errmsg, dec_errmsg, s_errmsg. cbn [er_code er_reason errmsg0]. intros. rmsg. Qed.
#[global] Hint Resolve W_errmsg : wrt.
#[global] Hint Resolve R_errmsg : rdt.
Lemma W_rhello v : wf_rhello v -> Wr (enc_rhello v) (s_rhello v).
Proof. unfold wf_rhello, enc_rhello, s_rhello. intros. wmsg. Qed.
Lemma R_rhello v : wf_rhello v -> Rd (dec_rhello rhello0) (s_rhello v) v.
Proof. destruct v as [x0 x1]. unfold wf_rhello, dec_rhello, s_rhello. cbn [rh_srv rh_url rhello0]. intros. rmsg. Qed.
#[global] Hint Resolve W_rhello : wrt.
#[global] Hint Resolve R_rhello : rdt.
Lemma W_sechdr v : wf_sechdr v -> Wr (enc_sechdr v) (s_sechdr v).
Proof. unfold wf_sechdr, enc_sechdr, s_sechdr. intros. wmsg. Qed.
Lemma R_sechdr v : wf_sechdr v -> Rd (dec_sechdr sechdr0) (s_sechdr v) v.
Proof. destruct v as [x0 x1 x2]. unfold wf_sechdr, dec_sechdr, s_sechdr. cbn [sh_policy sh_cert sh_thumb sechdr0]. intros. rmsg. Qed.
#[global] Hint Resolve W_sechdr : wrt.
#[global] Hint Resolve R_sechdr : rdt.
Lemma W_tokhdr v : wf_tokhdr v -> Wr (enc_tokhdr v) (s_tokhdr v).
Proof. unfold wf_tokhdr, enc_tokhdr, s_tokhdr. intros. wmsg. Qed.
Lemma R_tokhdr v : wf_tokhdr v -> Rd dec_tokhdr (s_tokhdr v) v.
Proof. destruct v as [x0]. unfold wf_tokhdr, dec_tokhdr, s_tokhdr. cbn [th_token]. intros. rmsg. Qed.
#[global] Hint Resolve W_tokhdr : wrt.
#[global] Hint Resolve R_tokhdr : rdt.
Lemma W_seqhdr v : wf_seqhdr v -> Wr (enc_seqhdr v) (s_seqhdr v).
Proof. unfold wf_seqhdr, enc_seqhdr, s_seqhdr. intros. wmsg. Qed.
Lemma R_seqhdr v : wf_seqhdr v -> Rd dec_seqhdr (s_seqhdr v) v.
Proof. destruct v as [x0 x1]. unfold wf_seqhdr, dec_seqhdr, s_seqhdr. cbn [sq_num sq_req]. intros. rmsg. Qed.
#[global] Hint Resolve W_seqhdr : wrt.
#[global] Hint Resolve R_seqhdr : rdt.
Lemma W_reqhdr v : wf_reqhdr v -> Wr (enc_reqhdr v) (s_reqhdr v).
Proof. unfold wf_reqhdr, enc_reqhdr, s_reqhdr. intros. wmsg. Qed.
Lemma R_reqhdr v : wf_reqhdr v -> Rd (dec_reqhdr reqhdr0) (s_reqhdr v) v.
Proof. destruct v as [x0 x1 x2 x3 x4 x5 x6]. unfold wf_reqhdr, dec_reqhdr, s_reqhdr. cbn [rq_token rq_time rq_handle rq_diag rq_audit rq_hint rq_add reqhdr0]. intros. rmsg. Qed.
#[global] Hint Resolve W_reqhdr : wrt.
#[global] Hint Resolve R_reqhdr : rdt.
Lemma W_rsphdr v : wf_rsphdr v -> Wr (enc_rsphdr v) (s_rsphdr v).
Proof. unfold wf_rsphdr, enc_rsphdr, s_rsphdr. intros. wmsg. Qed.
Lemma R_rsphdr v : wf_rsphdr v -> Rd (dec_rsphdr rsphdr0) (s_rsphdr v) v.
Proof. destruct v as [x0 x1 x2 x3 x4 x5]. unfold wf_rsphdr, dec_rsphdr, s_rsphdr. cbn [rp_time rp_handle rp_result rp_diag rp_strs rp_add rsphdr0]. intros. rmsg. Qed.
#[global] Hint Resolve W_rsphdr : wrt.
#[global] Hint Resolve R_rsphdr : rdt.
Lemma W_openreq v : wf_openreq v -> Wr (enc_openreq v) (s_openreq v).
Proof. unfold wf_openreq, enc_openreq, s_openreq. intros. wmsg. Qed.
Lemma R_openreq v : wf_openreq v -> Rd (dec_openreq openreq0) (s_openreq v) v.
Proof. destruct v as [x0 x1 x2 x3 x4 x5]. unfold wf_openreq, dec_openreq, s_openreq. cbn [oq_hdr oq_ver oq_type oq_mode oq_nonce oq_life openreq0]. intros. rmsg. Qed.
#[global] Hint Resolve W_openreq : wrt.
#[global] Hint Resolve R_openreq : rdt.
Lemma W_closereq v : wf_closereq v -> Wr (enc_closereq v) (s_closereq v).
Proof. unfold wf_closereq, enc_closereq, s_closereq. intros. wmsg. Qed.
Lemma R_closereq v : wf_closereq v -> Rd (dec_closereq closereq0) (s_closereq v) v.
Proof. destruct v as [x0]. unfold wf_closereq, dec_closereq, s_closereq. cbn [cq_hdr closereq0]. intros. rmsg. Qed.
#[global] Hint Resolve W_closereq : wrt.
#[global] Hint Resolve R_closereq : rdt.
Lemma W_closersp v : wf_closersp v -> Wr (enc_closersp v) (s_closersp v).
Proof. unfold wf_closersp, enc_closersp, s_closersp. intros. wmsg. Qed.
Lemma R_closersp v : wf_closersp v -> Rd (dec_closersp closersp0) (s_closersp v) v.
Proof. destruct v as [x0]. unfold wf_closersp, dec_closersp, s_closersp. cbn [cr_hdr closersp0]. intros. rmsg. Qed.
#[global] Hint Resolve W_closersp : wrt.
#[global] Hint Resolve R_closersp : rdt.
Lemma W_chtoken v : wf_chtoken v -> Wr (enc_chtoken v) (s_chtoken v).
Proof. unfold wf_chtoken, enc_chtoken, s_chtoken. intros. wmsg. Qed.
Lemma R_chtoken v : wf_chtoken v -> Rd dec_chtoken (s_chtoken v) v.
Proof. destruct v as [x0 x1 x2 x3]. unfold wf_chtoken, dec_chtoken, s_chtoken. cbn [ct_chan ct_token ct_at ct_life]. intros. rmsg. Qed.
#[global] Hint Resolve W_chtoken : wrt.
#[global] Hint Resolve R_chtoken : rdt.
Lemma W_openrsp v : wf_openrsp v -> Wr (enc_openrsp v) (s_openrsp v).
Proof. unfold wf_openrsp, enc_openrsp, s_openrsp. intros. wmsg. Qed.
Lemma R_openrsp v : wf_openrsp v -> Rd (dec_openrsp openrsp0) (s_openrsp v) v.
Proof. destruct v as [x0 x1 x2 x3]. unfold wf_openrsp, dec_openrsp, s_openrsp. cbn [or_hdr or_ver or_tok or_nonce openrsp0]. intros. rmsg. Qed.
#[global] Hint Resolve W_openrsp : wrt.
#[global] Hint Resolve R_openrsp : rdt.
Lemma W_appdesc v : wf_appdesc v -> Wr (enc_appdesc v) (s_appdesc v).
Proof. unfold wf_appdesc, enc_appdesc, s_appdesc. intros. wmsg. Qed.
Lemma R_appdesc v : wf_appdesc v -> Rd (dec_appdesc appdesc0) (s_appdesc v) v.
Proof. destruct v as [x0 x1 x2 x3 x4 x5 x6]. unfold wf_appdesc, dec_appdesc, s_appdesc. cbn [ad_uri ad_prod ad_name ad_type ad_gw ad_prof ad_urls appdesc0]. intros. rmsg. Qed.
#[global] Hint Resolve W_appdesc : wrt.
#[global] Hint Resolve R_appdesc : rdt.
Lemma W_utpolicy v : wf_utpolicy v -> Wr (enc_utpolicy v) (s_utpolicy v).
Proof. unfold wf_utpolicy, enc_utpolicy, s_utpolicy. intros. wmsg. Qed.
Lemma R_utpolicy v : wf_utpolicy v -> Rd (dec_utpolicy utpolicy0) (s_utpolicy v) v.
Proof. destruct v as [x0 x1 x2 x3 x4]. unfold wf_utpolicy, dec_utpolicy, s_utpolicy. cbn [up_id up_type up_iss up_url up_pol utpolicy0]. intros. rmsg. Qed.
#[global] Hint Resolve W_utpolicy : wrt.
#[global] Hint Resolve R_utpolicy : rdt.
Lemma W_arr_utpolicy l : wf_arr wf_utpolicy l -> Wr (enc_arr enc_utpolicy l) (s_arr s_utpolicy l).
Proof. intros H. eapply W_arr; [|exact H]. auto with wrt. Qed.
Lemma R_arr_utpolicy l : wf_arr wf_utpolicy l -> Rd (dec_arr utpolicy0 dec_utpolicy []) (s_arr s_utpolicy l) l.
Proof. intros H. eapply R_arr; [|exact H]. auto with rdt. Qed.
#[global] Hint Resolve W_arr_utpolicy : wrt.
#[global] Hint Resolve R_arr_utpolicy : rdt.
Lemma W_epdesc v : wf_epdesc v -> Wr (enc_epdesc v) (s_epdesc v).
Proof. unfold wf_epdesc, enc_epdesc, s_epdesc. intros. wmsg. Qed.
Lemma R_epdesc v : wf_epdesc v -> Rd (dec_epdesc epdesc0) (s_epdesc v) v.
Proof. destruct v as [x0 x1 x2 x3 x4 x5 x6 x7]. unfold wf_epdesc, dec_epdesc, s_epdesc. cbn [ed_url ed_srv ed_cert ed_mode ed_pol ed_toks ed_trans ed_level epdesc0]. intros. rmsg. Qed.
#[global] Hint Resolve W_epdesc : wrt.
#[global] Hint Resolve R_epdesc : rdt.
Lemma W_arr_epdesc l : wf_arr wf_epdesc l -> Wr (enc_arr enc_epdesc l) (s_arr s_epdesc l).
Proof. intros H. eapply W_arr; [|exact H]. auto with wrt. Qed.
Lemma R_arr_epdesc l : wf_arr wf_epdesc l -> Rd (dec_arr epdesc0 dec_epdesc []) (s_arr s_epdesc l) l.
Proof. intros H. eapply R_arr; [|exact H]. auto with rdt. Qed.
#[global] Hint Resolve W_arr_epdesc : wrt.
#[global] Hint Resolve R_arr_epdesc : rdt.
Lemma W_epreq v : wf_epreq v -> Wr (enc_epreq v) (s_epreq v).
Proof. unfold wf_epreq, enc_epreq, s_epreq. intros. wmsg. Qed.
Lemma R_epreq v : wf_epreq v -> Rd (dec_epreq epreq0) (s_epreq v) v.
Proof. destruct v as [x0 x1 x2 x3]. unfold wf_epreq, dec_epreq, s_epreq. cbn [eq_hdr eq_url eq_loc eq_prof epreq0]. intros. rmsg. Qed.
#[global] Hint Resolve W_epreq : wrt.
#[global] Hint Resolve R_epreq : rdt.
Lemma W_eprsp v : wf_eprsp v -> Wr (enc_eprsp v) (s_eprsp v).
Proof. unfold wf_eprsp, enc_eprsp, s_eprsp. intros. wmsg. Qed.
Lemma R_eprsp v : wf_eprsp v -> Rd (dec_eprsp eprsp0) (s_eprsp v) v.
Proof. destruct v as [x0 x1]. unfold wf_eprsp, dec_eprsp, s_eprsp. cbn [ep_hdr ep_list eprsp0]. intros. rmsg. Qed.
#[global] Hint Resolve W_eprsp : wrt.
#[global] Hint Resolve R_eprsp : rdt.
Lemma W_sigdata v : wf_sigdata v -> Wr (enc_sigdata v) (s_sigdata v).
Proof. unfold wf_sigdata, enc_sigdata, s_sigdata. intros. wmsg. Qed.
Lemma R_sigdata v : wf_sigdata v -> Rd (dec_sigdata sigdata0) (s_sigdata v) v.
Proof. destruct v as [x0 x1]. unfold wf_sigdata, dec_sigdata, s_sigdata. cbn [sg_alg sg_sig sigdata0]. intros. rmsg. Qed.
#[global] Hint Resolve W_sigdata : wrt.
#[global] Hint Resolve R_sigdata : rdt.
Lemma W_csreq v : wf_csreq v -> Wr (enc_csreq v) (s_csreq v).
Proof. unfold wf_csreq, enc_csreq, s_csreq. intros. wmsg. Qed.
Lemma R_csreq v : wf_csreq v -> Rd (dec_csreq csreq0) (s_csreq v) v.
Proof. destruct v as [x0 x1 x2 x3 x4 x5 x6 x7 x8]. unfold wf_csreq, dec_csreq, s_csreq. cbn [cs_hdr cs_desc cs_uri cs_url cs_name cs_nonce cs_cert cs_tmo cs_max csreq0]. intros. rmsg. Qed.
#[global] Hint Resolve W_csreq : wrt.
#[global] Hint Resolve R_csreq : rdt.
Lemma W_csrsp v : wf_csrsp v -> Wr (enc_csrsp v) (s_csrsp v).
Proof. unfold wf_csrsp, enc_csrsp, s_csrsp. intros. wmsg. Qed.
Lemma R_csrsp v : wf_csrsp v -> Rd (dec_csrsp csrsp0) (s_csrsp v) v.
Proof. destruct v as [x0 x1 x2 x3 x4 x5 x6 x7 x8 x9]. unfold wf_csrsp, dec_csrsp, s_csrsp. cbn [ch_hdr ch_sid ch_tok ch_tmo ch_nonce ch_cert ch_eps ch_soft ch_sig ch_max csrsp0]. intros. rmsg. Qed.
#[global] Hint Resolve W_csrsp : wrt.
#[global] Hint Resolve R_csrsp : rdt.
Lemma W_clsreq v : wf_clsreq v -> Wr (enc_clsreq v) (s_clsreq v).
Proof. unfold wf_clsreq, enc_clsreq, s_clsreq. intros. wmsg. Qed.
Lemma R_clsreq v : wf_clsreq v -> Rd (dec_clsreq clsreq0) (s_clsreq v) v.
Proof. destruct v as [x0 x1]. unfold wf_clsreq, dec_clsreq, s_clsreq. cbn [cl_hdr cl_del clsreq0]. intros. rmsg. Qed.
#[global] Hint Resolve W_clsreq : wrt.
#[global] Hint Resolve R_clsreq : rdt.
Lemma W_clsrsp v : wf_clsrsp v -> Wr (enc_clsrsp v) (s_clsrsp v).
Proof. unfold wf_clsrsp, enc_clsrsp, s_clsrsp. intros. wmsg. Qed.
Lemma R_clsrsp v : wf_clsrsp v -> Rd (dec_clsrsp clsrsp0) (s_clsrsp v) v.
Proof. destruct v as [x0]. unfold wf_clsrsp, dec_clsrsp, s_clsrsp. cbn [cz_hdr clsrsp0]. intros. rmsg. Qed.
#[global] Hint Resolve W_clsrsp : wrt.
#[global] Hint Resolve R_clsrsp : rdt.
Lemma W_asreq v : wf_asreq v -> Wr (enc_asreq v) (s_asreq v).
Proof. unfold wf_asreq, enc_asreq, s_asreq. intros. wmsg. Qed.
Lemma R_asreq v : wf_asreq v -> Rd (dec_asreq asreq0) (s_asreq v) v.
Proof. destruct v as [x0 x1 x2 x3 x4 x5]. unfold wf_asreq, dec_asreq, s_asreq. cbn [as_hdr as_sig as_soft as_loc as_tok as_tsig asreq0]. intros. rmsg. Qed.
#[global] Hint Resolve W_asreq : wrt.
#[global] Hint Resolve R_asreq : rdt.
Lemma W_asrsp v : wf_asrsp v -> Wr (enc_asrsp v) (s_asrsp v).
Proof. unfold wf_asrsp, enc_asrsp, s_asrsp. intros. wmsg. Qed.
Lemma R_asrsp v : wf_asrsp v -> Rd (dec_asrsp asrsp0) (s_asrsp v) v.
Proof. destruct v as [x0 x1 x2 x3]. unfold wf_asrsp, dec_asrsp, s_asrsp. cbn [ar_hdr ar_nonce ar_res ar_diag asrsp0]. intros. rmsg. Qed.
#[global] Hint Resolve W_asrsp : wrt.
#[global] Hint Resolve R_asrsp : rdt.
Lemma W_rvid v : wf_rvid v -> Wr (enc_rvid v) (s_rvid v).
Proof. unfold wf_rvid, enc_rvid, s_rvid. intros. wmsg. Qed.
Lemma R_rvid v : wf_rvid v -> Rd (dec_rvid rvid0) (s_rvid v) v.
Proof. destruct v as [x0 x1 x2 x3]. unfold wf_rvid, dec_rvid, s_rvid. cbn [rv_id rv_attr rv_range rv_enc rvid0]. intros. rmsg. Qed.
#[global] Hint Resolve W_rvid : wrt.
#[global] Hint Resolve R_rvid : rdt.
Lemma W_arr_rvid l : wf_arr wf_rvid l -> Wr (enc_arr enc_rvid l) (s_arr s_rvid l).
Proof. intros H. eapply W_arr; [|exact H]. auto with wrt. Qed.
Lemma R_arr_rvid l : wf_arr wf_rvid l -> Rd (dec_arr rvid0 dec_rvid []) (s_arr s_rvid l) l.
Proof. intros H. eapply R_arr; [|exact H]. auto with rdt. Qed.
#[global] Hint Resolve W_arr_rvid : wrt.
#[global] Hint Resolve R_arr_rvid : rdt.
Lemma W_rdreq v : wf_rdreq v -> Wr (enc_rdreq v) (s_rdreq v).
Proof. unfold wf_rdreq, enc_rdreq, s_rdreq. intros. wmsg. Qed.
Lemma R_rdreq v : wf_rdreq v -> Rd (dec_rdreq rdreq0) (s_rdreq v) v.
Proof. destruct v as [x0 x1 x2 x3]. unfold wf_rdreq, dec_rdreq, s_rdreq. cbn [rr_hdr rr_age rr_ts rr_nodes rdreq0]. intros. rmsg. Qed.
#[global] Hint Resolve W_rdreq : wrt.
#[global] Hint Resolve R_rdreq : rdt.
Lemma W_rdrsp v : wf_rdrsp v -> Wr (enc_rdrsp v) (s_rdrsp v).
Proof. unfold wf_rdrsp, enc_rdrsp, s_rdrsp. intros. wmsg. Qed.
Lemma R_rdrsp v : wf_rdrsp v -> Rd (dec_rdrsp rdrsp0) (s_rdrsp v) v.
Proof. destruct v as [x0 x1 x2]. unfold wf_rdrsp, dec_rdrsp, s_rdrsp. cbn [rs_hdr rs_res rs_diag rdrsp0]. intros. rmsg. Qed.
#[global] Hint Resolve W_rdrsp : wrt.
#[global] Hint Resolve R_rdrsp : rdt.
Lemma W_cont {A} (e : A -> wr) (f : A -> list Z) (P : A -> Prop) v : (forall x, P x -> Wr (e x) (f x)) -> wf_cont P v -> Wr (enc_cont e v) (s_cont f v).
Proof. intros H [H1 H2]. apply Wr_seq; [now apply W_plain|auto]. Qed.
Lemma R_cont {A} (d : A -> rd A) (f : A -> list Z) (P : A -> Prop) id x0 v : (forall x, P x -> Rd (d x0) (f x) x) -> wf_cont P v ->
  Rd (dec_cont d (cont_new id x0)) (s_cont f v) v.
Proof.
  destruct v as [i m]. intros H [H1 H2]. cbn [co_id co_msg] in *. unfold dec_cont, cont_new. cbn [co_id co_msg].
  eapply Rd_bind; [apply R_plain; exact H1|]. rlast. auto.
Qed.
