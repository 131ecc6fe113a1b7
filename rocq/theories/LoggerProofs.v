(** Proofs about the logger. *)
From Coq Require Import String Ascii.
From Verif Require Import Base ModbusCodecModel ModbusCodecSpec ModbusClientModel ModbusServerModel LoggerModel LoggerSites LoggerSpec.
Local Open Scope string_scope.
Local Open Scope list_scope.
Local Open Scope Z_scope.

(** ** Strings *)
Definition slen (s : string) : Z := Z.of_nat (String.length s).
Lemma slen_cons c s : slen (String c s) = slen s + 1.
Proof. unfold slen. cbn [String.length]. lia. Qed.
Lemma slen_app a b : slen (a +++ b) = slen a + slen b.
Proof. induction a as [|c a IH]; [reflexivity|]. cbn [append]. rewrite !slen_cons, IH. lia. Qed.
Lemma slen_nonneg s : 0 <= slen s. Proof. unfold slen. lia. Qed.

(** No newline in a string. *)
Fixpoint plain (s : string) : bool := match s with EmptyString => true | String c r => negb (c =? newline)%char && plain r end.
Lemma plain_app a b : plain (a +++ b) = plain a && plain b.
Proof. induction a as [|c a IH]; [reflexivity|]. cbn [append plain]. now rewrite IH, andb_assoc. Qed.

Lemma digit_plain d : 0 <= d < 10 -> (digit d =? newline)%char = false /\ Z.of_nat (nat_of_ascii (digit d)) - 48 = d.
Proof. intros H. assert (D : d = 0 \/ d = 1 \/ d = 2 \/ d = 3 \/ d = 4 \/ d = 5 \/ d = 6 \/ d = 7 \/ d = 8 \/ d = 9) by lia. intuition (subst d; reflexivity). Qed.
Lemma hex_plain d : 0 <= d < 16 -> (hexdigit d =? newline)%char = false.
Proof.
  intros H. assert (D : d = 0 \/ d = 1 \/ d = 2 \/ d = 3 \/ d = 4 \/ d = 5 \/ d = 6 \/ d = 7 \/ d = 8 \/ d = 9 \/ d = 10 \/ d = 11 \/ d = 12 \/ d = 13 \/ d = 14 \/ d = 15) by lia.
  intuition (subst d; reflexivity).
Qed.

(** ** Numbers *)
Lemma dec_go_spec f : forall n acc, 0 <= n < 10 ^ Z.of_nat (S f) ->
  exists s, dec_go (S f) n acc = s +++ acc /\ 1 <= slen s <= Z.of_nat (S f) /\ plain s = true /\ (forall a, value a s = a * 10 ^ slen s + n) /\
    (forall k, (0 < k)%nat -> n < 10 ^ Z.of_nat k -> slen s <= Z.of_nat k).
Proof.
  induction f as [|f IH]; intros n acc H.
  - cbn [dec_go]. change (10 ^ Z.of_nat 1) with 10 in H. rewrite Z.mod_small by lia. destruct (Z.ltb_spec n 10); [|lia]. destruct (digit_plain n H) as [P V].
    exists (String (digit n) ""). split; [reflexivity|]. cbn [plain value]. rewrite P. split; [cbn; lia|]. split; [reflexivity|]. split; [|intros; cbn; lia].
    intros a. rewrite V. change (slen (String (digit n) "")) with 1. lia.
  - cbn [dec_go]. destruct (digit_plain (n mod 10) ltac:(lia)) as [P V]. destruct (Z.ltb_spec n 10) as [Hn|Hn].
    + rewrite Z.mod_small in * by lia. exists (String (digit n) ""). split; [reflexivity|]. cbn [plain value]. rewrite P. split; [change (slen (String (digit n) "")) with 1; lia|]. split; [reflexivity|].
      split; [|intros; change (slen (String (digit n) "")) with 1; lia].
      intros a. rewrite V. change (slen (String (digit n) "")) with 1. lia.
    + assert (B : 0 <= n / 10 < 10 ^ Z.of_nat (S f)).
      { split; [lia|]. apply Z.div_lt_upper_bound; [lia|]. replace (10 * 10 ^ Z.of_nat (S f)) with (10 ^ Z.of_nat (S (S f))); [lia|].
        rewrite (Nat2Z.inj_succ (S f)), Z.pow_succ_r by lia. reflexivity. }
      destruct (IH (n / 10) (String (digit (n mod 10)) acc) B) as (s & E & L & Pl & Va & K). exists (s +++ String (digit (n mod 10)) "").
      change (match f with | 0%nat => _ | S _ => _ end) with (dec_go (S f) (n / 10) (String (digit (n mod 10)) acc)) || idtac.
      split.
      * cbn [dec_go] in E. rewrite E. clear. induction s as [|c s IH]; [reflexivity|]. cbn [append]. now rewrite IH.
      * rewrite slen_app, plain_app, Pl. change (slen (String (digit (n mod 10)) "")) with 1. cbn [plain]. rewrite P. split; [lia|]. split; [reflexivity|]. split.
        { intros a. assert (Vapp : forall x y b, value b (x +++ y) = value (value b x) y) by (induction x as [|c x IHx]; intros y b; [reflexivity|]; cbn [append value]; apply IHx).
          rewrite Vapp, Va. cbn [value]. rewrite V. rewrite Z.pow_add_r by (try lia; apply slen_nonneg). change (10 ^ 1) with 10. pose proof (Z.div_mod n 10 ltac:(lia)). lia. }
        { intros k Hk Hlt. destruct k as [|k]; [lia|]. destruct k as [|k]; [change (10 ^ Z.of_nat 1) with 10 in Hlt; lia|].
          assert (n / 10 < 10 ^ Z.of_nat (S k)).
          { apply Z.div_lt_upper_bound; [lia|]. replace (10 * 10 ^ Z.of_nat (S k)) with (10 ^ Z.of_nat (S (S k))); [lia|]. rewrite (Nat2Z.inj_succ (S k)), Z.pow_succ_r by lia. reflexivity. }
          specialize (K (S k) ltac:(lia) H0). lia. }
Qed.
Lemma app_nil_s s : s +++ "" = s. Proof. induction s as [|c s IH]; [reflexivity|]. cbn [append]. now rewrite IH. Qed.
Lemma dec_spec n : 0 <= n < 100000000000000000000 -> plain (dec n) = true /\ value 0 (dec n) = n /\ 1 <= slen (dec n) <= 20 /\ (forall k, (0 < k)%nat -> n < 10 ^ Z.of_nat k -> slen (dec n) <= Z.of_nat k).
Proof.
  intros H. destruct (dec_go_spec 19 n "" H) as (s & E & L & P & V & K). unfold dec. rewrite E, app_nil_s. rewrite V. split; [exact P|]. split; [lia|]. split; [exact L|exact K].
Qed.
Lemma dec_u n : 0 <= n < 4294967296 -> slen (dec n) <= 10 /\ plain (dec n) = true.
Proof. intros H. destruct (dec_spec n ltac:(lia)) as (P & _ & _ & K). split; [|exact P]. apply (K 10%nat); [lia|]. change (10 ^ Z.of_nat 10) with 10000000000. lia. Qed.
Lemma dec_z n : 0 <= n < 18446744073709551616 -> slen (dec n) <= 20 /\ plain (dec n) = true.
Proof. intros H. destruct (dec_spec n ltac:(lia)) as (P & _ & L & _). split; [lia|exact P]. Qed.
Lemma sdec_d n : -2147483648 <= n < 4294967296 -> slen (sdec n) <= 11 /\ plain (sdec n) = true.
Proof.
  intros H. unfold sdec. destruct (Z.ltb_spec n 0).
  - destruct (dec_u (- n) ltac:(lia)) as [L P]. rewrite slen_cons. cbn [plain]. rewrite P. split; [lia|reflexivity].
  - destruct (dec_u n ltac:(lia)) as [L P]. split; [lia|exact P].
Qed.

(** ** Dumps *)
Lemma dump_len l : slen (dump l) = 3 * Z.of_nat (length l).
Proof. induction l as [|b l IH]; [reflexivity|]. cbn [dump length]. rewrite !slen_cons, IH. lia. Qed.
Lemma dump_plain l : bytes_ok l -> plain (dump l) = true.
Proof.
  induction 1 as [|b l Hb _ IH]; [reflexivity|]. unfold is_byte in Hb. cbn [dump plain]. rewrite (hex_plain (b / 16)), (hex_plain (b mod 16)), IH by lia. reflexivity.
Qed.
Lemma finish_len o bs : finish o = EncOk bs -> Z.of_nat (length bs) <= 260.
Proof.
  unfold finish. destruct o as [x|]; [|discriminate]. destruct (bufMaxLen <? _); [discriminate|]. destruct (Z.ltb_spec maxAduLen (Z.of_nat (length x))); [discriminate|]. intros E. injection E as <-. unfold maxAduLen in *. lia.
Qed.
Lemma tx_request_len q l : tx_request q = Some l -> Z.of_nat (length l) <= 260.
Proof.
  unfold tx_request. destruct (encode_req q) as [bs| | |] eqn:E; try discriminate. intros H. injection H as <-. unfold encode_req in E.
  repeat match type of E with
  | (if ?b then _ else _) = _ => destruct b; try discriminate E
  | (match ?x with _ => _ end) = _ => destruct x; try discriminate E
  end; exact (finish_len _ _ E).
Qed.
Lemma tx_reply_len a l : tx_reply a = Some l -> Z.of_nat (length l) <= 260.
Proof.
  unfold tx_reply. destruct (encode_rsp a) as [bs| | |]; try discriminate. unfold isAduValid, maxAduLen. destruct (Z.ltb_spec (Z.of_nat (length bs)) 260); [|discriminate]. destruct (_ =? _); [|discriminate].
  intros E. injection E as <-. lia.
Qed.
Lemma rx_frame_len buf len got l : 0 <= len -> rx_frame buf len got = Some l -> Z.of_nat (length l) <= 260.
Proof.
  intros H0. unfold rx_frame. destruct (maxAduLen <? len); [discriminate|]. cbv zeta. set (n := len + _). set (b := buf_write _ _ _). destruct (frame_check b n) eqn:F; try discriminate. intros E. injection E as <-.
  unfold frame_check in F. destruct (isAduHdrReceived n); [|discriminate F]. destruct (isAduDataLenValid b); [|discriminate F]. destruct (isAduReceived b n); [|discriminate F].
  destruct (isAduValid b n) eqn:V; [|discriminate F]. unfold isAduValid in V. apply andb_prop in V as [V _]. apply Z.ltb_lt in V. unfold maxAduLen in V. rewrite firstn_length. lia.
Qed.
Lemma dumped_len l : dumped l -> Z.of_nat (length l) <= 260.
Proof. intros [_ [[q H]|[[a H]|(buf & len & got & H0 & H)]]]; eauto using tx_request_len, tx_reply_len, rx_frame_len. Qed.

(** ** The room a statement needs *)
Definition longest (ns : list string) : Z := fold_right (fun s m => Z.max (slen s) m) 0 ns.
Definition src_room (s : source) : option Z := match s with SName ns => if forallb plain ns then Some (longest ns) else None | SDump => Some 780 end.
Fixpoint room (ps : list piece) (ss : list source) (n : nat) : option Z :=
  match ps with
  | [] => Some 0
  | PChar c :: r => if (c =? newline)%char then None else option_map (Z.add 1) (room r ss n)
  | PU :: r => match n with S n => option_map (Z.add 10) (room r ss n) | O => None end
  | PD :: r => match n with S n => option_map (Z.add 11) (room r ss n) | O => None end
  | PZu :: r => match n with S n => option_map (Z.add 20) (room r ss n) | O => None end
  | PS :: r => match n, ss with
               | S n, s :: ss => match src_room s with Some k => option_map (Z.add k) (room r ss n) | None => None end
               | _, _ => None
               end
  | PBad :: _ => None
  end.
Lemma longest_ge ns t : In t ns -> slen t <= longest ns.
Proof. induction ns as [|x ns IH]; [intros []|]. cbn [longest fold_right]. fold (longest ns). intros [->|H]; [lia|]. specialize (IH H). lia. Qed.
Lemma src_fits s t k : from s t -> src_room s = Some k -> slen t <= k /\ plain t = true.
Proof.
  destruct s as [ns|]; cbn [from src_room].
  - intros Hi. destruct (forallb plain ns) eqn:P; [|discriminate]. intros E. injection E as <-. split; [now apply longest_ge|]. rewrite forallb_forall in P. auto.
  - intros (l & D & ->) E. injection E as <-. rewrite dump_len. pose proof (dumped_len l D). split; [lia|]. apply dump_plain, D.
Qed.
Lemma omap k x y : option_map (Z.add k) (Some x) = Some y -> y = k + x.
Proof. cbn [option_map]. congruence. Qed.
Lemma render_room ps : forall ss a k, typed ps ss a -> room ps ss (length a) = Some k -> exists m, render ps a = Some m /\ slen m <= k /\ plain m = true.
Proof.
  induction ps as [|p ps IH]; intros ss a k T R.
  - injection R as <-. exists "". repeat split. cbn. lia.
  - destruct p as [c| | | | |]; cbn [room] in R.
    + destruct (c =? newline)%char eqn:N; [discriminate|]. destruct (room ps ss (length a)) as [k'|] eqn:R'; [|discriminate]. apply omap in R as ->.
      assert (T' : typed ps ss a) by (cbn [typed] in T; destruct a; [destruct ps as [|[]]; exact Logic.I|exact T]). destruct (IH ss a k' T' R') as (m & E & L & P).
      exists (String c m). cbn [render plain]. rewrite E, slen_cons, N, P. split; [reflexivity|]. split; [lia|reflexivity].
    + destruct a as [|x a]; [discriminate|]. cbn [length] in R. destruct (room ps ss (length a)) as [k'|] eqn:R'; [|discriminate]. apply omap in R as ->. cbn [typed] in T. destruct x; try contradiction. destruct T as [B T].
      destruct (IH ss a k' T R') as (m & E & L & P). destruct (dec_u n B) as [L1 P1]. exists (dec n +++ m). cbn [render]. rewrite E, slen_app, plain_app, P1, P. split; [reflexivity|]. split; [lia|reflexivity].
    + destruct a as [|x a]; [discriminate|]. cbn [length] in R. destruct (room ps ss (length a)) as [k'|] eqn:R'; [|discriminate]. apply omap in R as ->. cbn [typed] in T. destruct x; try contradiction. destruct T as [B T].
      destruct (IH ss a k' T R') as (m & E & L & P). destruct (sdec_d n ltac:(lia)) as [L1 P1]. exists (sdec n +++ m). cbn [render]. rewrite E, slen_app, plain_app, P1, P. split; [reflexivity|]. split; [lia|reflexivity].
    + destruct a as [|x a]; [discriminate|]. cbn [length] in R. destruct (room ps ss (length a)) as [k'|] eqn:R'; [|discriminate]. apply omap in R as ->. cbn [typed] in T. destruct x; try contradiction. destruct T as [B T].
      destruct (IH ss a k' T R') as (m & E & L & P). destruct (dec_z n B) as [L1 P1]. exists (dec n +++ m). cbn [render]. rewrite E, slen_app, plain_app, P1, P. split; [reflexivity|]. split; [lia|reflexivity].
    + destruct a as [|x a]; [discriminate|]. cbn [length] in R. destruct ss as [|s ss]; [discriminate|]. destruct (src_room s) as [k0|] eqn:S; [|discriminate].
      destruct (room ps ss (length a)) as [k'|] eqn:R'; [|discriminate]. apply omap in R as ->. cbn [typed] in T. destruct x; try contradiction. destruct T as [B T].
      destruct (IH ss a k' T R') as (m & E & L & P). destruct (src_fits s s0 k0 B S) as [L1 P1]. exists (s0 +++ m). cbn [render]. rewrite E, slen_app, plain_app, P1, P. split; [reflexivity|]. split; [lia|reflexivity].
    + discriminate.
Qed.

(** Checked of every log statement there is. *)
Definition roomy (s : site) : bool := match room (pieces (s_fmt s)) (s_src s) (s_argc s) with Some k => k <? 1024 | None => false end.
Lemma all_roomy : forallb roomy sites = true.
Proof. vm_compute. reflexivity. Qed.

Theorem site_fits s a : In s sites -> executed s a -> exists m, render (pieces (s_fmt s)) a = Some m /\ slen m < 1024 /\ plain m = true.
Proof.
  intros Hs [Ha T]. pose proof all_roomy as A. rewrite forallb_forall in A. specialize (A s Hs). unfold roomy in A. rewrite <- Ha in A.
  destruct (room (pieces (s_fmt s)) (s_src s) (length a)) as [k|] eqn:R; [|discriminate]. apply Z.ltb_lt in A. destruct (render_room _ _ _ _ T R) as (m & E & L & P). exists m. split; [exact E|]. split; [lia|exact P].
Qed.
Theorem lm_spec lv s a : In s sites -> executed s a ->
  exists m, render (pieces (s_fmt s)) a = Some m /\ lm lv s a = (if shown lv s then LMsg m else LSkip).
Proof.
  intros Hs X. destruct (site_fits s a Hs X) as (m & E & L & _). exists m. split; [exact E|]. unfold lm, shown. rewrite E. destruct (rank (lv (s_task s)) <=? rank (s_level s)); [|reflexivity].
  unfold slen in L. unfold tmpLen. destruct (Z.leb_spec (Z.of_nat (String.length m) + 1) 1024); [reflexivity|lia].
Qed.

(** ** Lines *)
Lemma append_assoc_s (a b c : string) : (a +++ b) +++ c = a +++ (b +++ c).
Proof. induction a as [|x a IH]; [reflexivity|]. cbn [append]. now rewrite IH. Qed.
Lemma log_line_entry t s m : log_line t s m = entry t s m +++ String newline "".
Proof. unfold log_line, entry. rewrite !append_assoc_s. reflexivity. Qed.
Lemma lines_cons e o : plain e = true -> lines (e +++ String newline o) = option_map (cons e) (lines o).
Proof.
  induction e as [|c e IH]; intros P.
  - cbn [append lines]. rewrite Ascii.eqb_refl. reflexivity.
  - cbn [plain] in P. apply andb_prop in P as [P1 P2]. apply negb_true_iff in P1. cbn [append lines]. rewrite P1, (IH P2). destruct (lines o) as [ls|]; reflexivity.
Qed.

Lemma dec2_plain n : 0 <= n < 100 -> plain (dec2 n) = true.
Proof. intros H. unfold dec2. cbn [plain]. destruct (digit_plain (n / 10) ltac:(lia)) as [-> _]. destruct (digit_plain (n mod 10) ltac:(lia)) as [-> _]. reflexivity. Qed.
Lemma dec3_plain n : 0 <= n < 1000 -> plain (dec3 n) = true.
Proof. intros H. unfold dec3. cbn [plain]. destruct (digit_plain (n / 100) ltac:(lia)) as [-> _]. rewrite dec2_plain by lia. reflexivity. Qed.
Lemma stamp_plain t : time_ok t -> plain (stamp t) = true.
Proof.
  unfold time_ok. intros H. unfold stamp. rewrite !plain_app. rewrite (proj2 (sdec_d (t_year t) ltac:(lia))). rewrite !dec2_plain by lia. reflexivity.
Qed.
Definition tidy_site (s : site) : bool := plain (base_name (s_file s)) && (0 <=? s_line s) && (s_line s <? 100000).
Lemma all_tidy : forallb tidy_site sites = true.
Proof. vm_compute. reflexivity. Qed.
Lemma entry_plain t s m : In s sites -> time_ok t -> plain m = true -> plain (entry t s m) = true.
Proof.
  intros Hs Ht Hm. pose proof all_tidy as A. rewrite forallb_forall in A. specialize (A s Hs). unfold tidy_site in A. apply andb_prop in A as [A A3]. apply andb_prop in A as [A1 A2].
  unfold entry. rewrite !plain_app, (stamp_plain t Ht), A1, Hm, (proj2 (sdec_d (s_line s) ltac:(lia))), dec3_plain by (unfold time_ok in Ht; lia).
  destruct (s_level s), (s_task s); reflexivity.
Qed.

Definition what := (ltime * site * list larg)%type.
Definition sound (x : what) : Prop := let '(t, s, a) := x in time_ok t /\ In s sites /\ executed s a.
Definition printed (lv : levels) (x : what) : bool := let '(_, s, _) := x in shown lv s.
Definition is_entry (x : what) (l : string) : Prop := let '(t, s, a) := x in exists m, render (pieces (s_fmt s)) a = Some m /\ l = entry t s m.
Theorem log_lines lv h : Forall sound h -> exists o ls, log_run lv h = Some o /\ lines o = Some ls /\ Forall2 is_entry (filter (printed lv) h) ls.
Proof.
  intros H. induction H as [|x h Hx Hh IH]; [exists "", []; split; [reflexivity|]; split; [reflexivity|constructor]|]. destruct IH as (o & ls & E & L & F). destruct x as [[t s] a]. destruct Hx as (Ht & Hs & Ha).
  destruct (lm_spec lv s a Hs Ha) as (m & R & M). destruct (site_fits s a Hs Ha) as (m' & R' & _ & P). rewrite R in R'. injection R' as <-.
  cbn [log_run filter printed]. rewrite M, E. destruct (shown lv s).
  - exists (log_line t s m +++ o), (entry t s m :: ls). split; [reflexivity|]. split.
    + rewrite log_line_entry, append_assoc_s. cbn [append]. rewrite (lines_cons _ _ (entry_plain t s m Hs Ht P)), L. reflexivity.
    + constructor; [|exact F]. exists m. auto.
  - exists o, ls. auto.
Qed.

(** base_name: what is behind the last slash. *)
Fixpoint slashes (s : string) : bool := match s with EmptyString => false | String c r => (c =? "/")%char || slashes r end.
Lemma after_none f : after_slash f = None -> slashes f = false.
Proof. induction f as [|c f IH]; [reflexivity|]. cbn [after_slash slashes]. destruct (after_slash f); [discriminate|]. destruct (c =? "/")%char; [discriminate|]. auto. Qed.
Lemma after_some f x : after_slash f = Some x -> slashes x = false /\ exists d, f = d +++ String "/" x.
Proof.
  revert x. induction f as [|c f IH]; [discriminate|]. intros x. cbn [after_slash]. destruct (after_slash f) as [y|] eqn:E.
  - intros H. injection H as <-. destruct (IH y eq_refl) as (S & d & ->). split; [exact S|]. exists (String c d). reflexivity.
  - destruct (c =? "/")%char eqn:C; [|discriminate]. intros H. injection H as <-. apply Ascii.eqb_eq in C as ->. split; [now apply after_none|]. exists "". reflexivity.
Qed.
