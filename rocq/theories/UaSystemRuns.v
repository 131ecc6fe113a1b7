(** Concrete histories of the assembled server, checked by computation. *)
From Verif Require Import Base ModbusCodecSpec ModbusClientModel UaCodecModel UaCodecSpec UaTcpModel UaTcpSpec UaTcpFacts UaChanModel UaChanSpec UaChanFacts
  UaServiceModel UaServiceSpec UaSystemModel UaSystemSpec UaSystemProofs UaSystemFacts.
Local Open Scope Z_scope.

Definition oracleb (o : oracle) : bool := umemb (o_j o) && ((0 <=? o_rnd o) && (o_rnd o <? 2147483648)) && i64b (o_t1 o) && i64b (o_t2 o).
Definition yev_okb (e : yev) : bool := match e with YNet e _ => tev_okb e | YMsg o _ => oracleb o end.
Fixpoint yrun (y : usys) (es : list yev) : option (usys * ytrace) :=
  match es with
  | [] => Some (y, [])
  | e :: es => if yev_okb e && y_enabled y e then
                 match y_step y e with
                 | Some (y1, r) => match yrun y1 es with Some (y2, tr) => Some (y2, r :: tr) | None => None end
                 | None => None
                 end
               else None
  end.
Lemma oracleb_ok o : oracleb o = true -> oracle_ok o.
Proof.
  unfold oracleb. intros H. do 3 (apply andb_prop in H as [H ?]). split; [now apply umemb_ok|]. split; [lia|]. auto using i64b_ok.
Qed.
Lemma yev_okb_ok e : yev_okb e = true -> yev_ok e.
Proof.
  destruct e as [e k|o k]; cbn [yev_okb yev_ok]; [|apply oracleb_ok].
  intros H. assert (F : forallb tev_okb [e] = true) by (cbn [forallb]; now rewrite H). apply tev_okb_ok in F. now apply Forall_inv in F.
Qed.
Lemma path_cons y e y1 r tr y2 : yev_ok e -> y_enabled y e = true -> y_step y e = Some (y1, r) -> ypath y1 tr y2 -> ypath y (r :: tr) y2.
Proof.
  intros A B C P. induction P as [|tr e2 y2 y3 r2 P IH A2 B2 C2].
  - apply (yp_step y [] e y y1 r (yp_nil y) A B C).
  - exact (yp_step y (r :: tr) e2 y2 y3 r2 IH A2 B2 C2).
Qed.
Lemma path_app y tr1 y1 tr2 y2 : ypath y tr1 y1 -> ypath y1 tr2 y2 -> ypath y (tr1 ++ tr2) y2.
Proof.
  intros P Q. induction Q as [|tr e y2 y3 r Q IH A B C]; [now rewrite app_nil_r|]. rewrite app_assoc. eapply yp_step; eauto.
Qed.
Lemma yrun_path es : forall y y2 tr, yrun y es = Some (y2, tr) -> ypath y tr y2.
Proof.
  induction es as [|e es IH]; intros y y2 tr H; cbn [yrun] in H.
  - injection H as <- <-. constructor.
  - destruct (yev_okb e && y_enabled y e) eqn:E; [|discriminate]. apply andb_prop in E as [E1 E2].
    destruct (y_step y e) as [[y1 r]|] eqn:Es; [|discriminate]. destruct (yrun y1 es) as [[y3 tr3]|] eqn:Er; [|discriminate].
    injection H as <- <-. eapply path_cons; eauto using yev_okb_ok.
Qed.
Definition ystart (b0 : list Z) (ini : list (Z * Z)) (es : list yev) : option (usys * ytrace) :=
  match y_new b0 ini with Some y => yrun y es | None => None end.
Definition yobs {A} (f : usys -> ytrace -> A) (o : option (usys * ytrace)) : option A := match o with Some (y, tr) => Some (f y tr) | None => None end.
Lemma ystart_reach b0 ini es o : umem_ok b0 -> cini_ok ini -> ystart b0 ini es = o ->
  match o with Some (y, tr) => yreach b0 ini y tr | None => True end.
Proof.
  intros Hb Hi <-. unfold ystart. destruct (y_new b0 ini) as [y|] eqn:E; [|exact I]. destruct (yrun y es) as [[y2 tr]|] eqn:Er; [|exact I].
  apply yrun_path in Er. change tr with ([] ++ tr). eapply path_reach; [|exact Er]. now constructor.
Qed.
(** What an observer computes of a run holds of a reachable state. *)
Lemma yobs_reach {A} b0 ini es (f : usys -> ytrace -> A) a : umem_ok b0 -> cini_ok ini -> yobs f (ystart b0 ini es) = Some a ->
  exists y tr, yreach b0 ini y tr /\ f y tr = a.
Proof.
  intros Hb Hi H. destruct (ystart b0 ini es) as [[y tr]|] eqn:E; [|discriminate].
  pose proof (ystart_reach b0 ini es _ Hb Hi E) as R. exists y, tr. split; [exact R|]. cbn [yobs] in H. now injection H.
Qed.
Lemma yrun_app es1 : forall y es2, yrun y (es1 ++ es2) =
  match yrun y es1 with Some (y1, tr1) => match yrun y1 es2 with Some (y2, tr2) => Some (y2, tr1 ++ tr2) | None => None end | None => None end.
Proof.
  induction es1 as [|e es1 IH]; intros y es2; cbn [yrun app].
  - now destruct (yrun y es2) as [[? ?]|].
  - destruct (yev_okb e && y_enabled y e); [|reflexivity]. destruct (y_step y e) as [[y1 r]|]; [|reflexivity].
    rewrite IH. destruct (yrun y1 es1) as [[y2 tr2]|]; [|reflexivity]. now destruct (yrun y2 es2) as [[? ?]|].
Qed.
(** A run in two parts. *)
Lemma yobs_split {A} b0 ini es1 es2 (f : usys -> ytrace -> usys -> ytrace -> A) a : umem_ok b0 -> cini_ok ini ->
  match ystart b0 ini es1 with Some (y, tr) => yobs (f y tr) (yrun y es2) | None => None end = Some a ->
  exists y tr tr2 y2, yreach b0 ini y tr /\ ypath y tr2 y2 /\ f y tr y2 tr2 = a.
Proof.
  intros Hb Hi H. destruct (ystart b0 ini es1) as [[y tr]|] eqn:E; [|discriminate].
  pose proof (ystart_reach b0 ini es1 _ Hb Hi E) as R. cbn in R. destruct (yrun y es2) as [[y2 tr2]|] eqn:E2; [|discriminate].
  cbn [yobs] in H. injection H as H. exists y, tr, tr2, y2. split; [exact R|]. split; [eapply yrun_path; eauto|exact H].
Qed.

(** Runs without steps after which a channel may be left behind. *)
Definition carefulb (y : usys) (tr : ytrace) (e : yev) : bool :=
  match e with YNet _ [] | YMsg _ [] => true | _ => false end &&
  match e, y_q y with
  | YMsg _ _, ITx KOpn m :: _ => g_acked (uview_of (um_conn m) (tproj tr)) && match uchan (um_conn m) (tproj tr) with None => true | Some c => c =? um_chan m end
  | YMsg _ _, IRelReq c :: _ => match uchan c (tproj tr) with None => true | Some _ => false end
  | _, _ => true
  end.
Lemma carefulb_ok y tr e ch : carefulb y tr e = true -> ~ disowns ch y tr e.
Proof.
  unfold carefulb, disowns. intros H [L|D].
  - apply L. destruct e as [? [|? ?]|? [|? ?]]; cbn [lossless]; first [reflexivity|discriminate H].
  - apply andb_prop in H as [_ H]. destruct e as [e k|o k]; [contradiction|]. destruct (y_q y) as [|[|c1 c2|[| |] m|c| | |] q]; try contradiction.
    + apply andb_prop in H as [H1 H2]. destruct D as [(A & B)|(A & B)]; [exact (B H1)|]. rewrite B in H2. lia.
    + now rewrite D in H.
Qed.
Fixpoint crun (y : usys) (tr : ytrace) (es : list yev) : option (usys * ytrace) :=
  match es with
  | [] => Some (y, tr)
  | e :: es => if yev_okb e && y_enabled y e && carefulb y tr e then
                 match y_step y e with Some (y1, r) => crun y1 (tr ++ [r]) es | None => None end
               else None
  end.
Lemma crun_careful es b0 ini : forall y tr y2 tr2, ycareful b0 ini y tr -> crun y tr es = Some (y2, tr2) -> ycareful b0 ini y2 tr2.
Proof.
  induction es as [|e es IH]; intros y tr y2 tr2 HR H; cbn [crun] in H; [injection H as <- <-; exact HR|].
  destruct (yev_okb e && y_enabled y e && carefulb y tr e) eqn:E; [|discriminate]. apply andb_prop in E as [E E3]. apply andb_prop in E as [E1 E2].
  destruct (y_step y e) as [[y1 r]|] eqn:Es; [|discriminate]. eapply IH; [|exact H]. econstructor; eauto using yev_okb_ok. intros ch. now apply carefulb_ok.
Qed.
Lemma cobs_careful {A} b0 ini es (f : usys -> ytrace -> A) a : umem_ok b0 -> cini_ok ini ->
  yobs f (match y_new b0 ini with Some y => crun y [] es | None => None end) = Some a -> exists y tr, ycareful b0 ini y tr /\ f y tr = a.
Proof.
  intros Hb Hi H. destruct (y_new b0 ini) as [y|] eqn:E; [|discriminate]. destruct (crun y [] es) as [[y2 tr]|] eqn:E2; [|discriminate].
  exists y2, tr. split; [eapply crun_careful; [|exact E2]; now constructor|]. cbn [yobs] in H. now injection H.
Qed.
