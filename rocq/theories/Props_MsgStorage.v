(** C05, C06: the inter-component message storage. *)
From Verif Require Import Base QueueModel MsgStorageModel MsgStorageSpec MsgStorageProofs.
Local Open Scope Z_scope.

(** C05.  For every geometry, every initial memory contents and every call
    sequence whose messages fit the payload area of a slot, the storage behaves
    as a FIFO of byte strings that refuses exactly when [num] are held and is
    empty exactly when all have been taken; no access leaves the allocation or
    the reader's buffer. *)
Theorem C05_storage_is_byte_fifo : forall chunk num slack m0 dst os,
  st_cfg chunk num slack -> chunk - 8 <= dst -> sizes_le (chunk - 8) os ->
  exists s s', st_new chunk num slack m0 = Some s /\
    st_run dst s os = Some (s', snd (sfifo_run num [] os)).
Proof. exact storage_fifo. Qed.
Print Assumptions C05_storage_is_byte_fifo.

(** The geometry used by the reactor (Reactor.cpp:23). *)
Example C05_reactor_geometry : st_cfg 4096 64 15.
Proof. unfold st_cfg; cbn; lia. Qed.
Example C05_case :
  sizes_le (4096 - 8) [SPush [1;2;3]; SPush []; SPop; SPop; SPop] /\
  snd (sfifo_run 64 [] [SPush [1;2;3]; SPush []; SPop; SPop; SPop]) =
  [SAccepted true; SAccepted true; STaken (Some [1;2;3]); STaken (Some []); STaken None].
Proof.
  split; [|vm_compute; reflexivity].
  intros d. cbn. intros [H|[H|[H|[H|[H|[]]]]]]; try discriminate; injection H as <-; cbn; lia.
Qed.

(** C06, the part that holds: a message of at most [chunk - 8] bytes, stored
    after any history of such messages, modifies only its own slot. *)
Theorem C06_store_stays_in_slot_partial : forall chunk num slack m0 dst os s0 s outs data s',
  st_cfg chunk num slack -> chunk - 8 <= dst -> sizes_le (chunk - 8) os ->
  st_new chunk num slack m0 = Some s0 -> st_run dst s0 os = Some (s, outs) ->
  Z.of_nat (length data) <= chunk - 8 ->
  st_push s data = Some (s', true) ->
  exists id, 0 <= id < Z.of_nat num /\
    forall x, ~ (chunk * id <= x < chunk * (id + 1)) -> s_mem s' x = s_mem s x.
Proof. exact push_frame. Qed.
Print Assumptions C06_store_stays_in_slot_partial.

(** C06 is false for the documented maximum: whenever a message of
    chunk-7..chunk bytes is stored, the first byte after its slot is
    overwritten. *)
Theorem C06_store_spills_refuted : forall chunk num slack s id data s',
  st_cfg chunk num slack -> s_chunk s = chunk ->
  0 <= id < Z.of_nat num -> chunk - 8 < Z.of_nat (length data) <= chunk ->
  q_front (s_free s) = Some id ->
  st_push s data = Some (s', true) ->
  s_mem s' (chunk * (id + 1)) = nth (Z.to_nat (chunk - 8)) data 0.
Proof. exact push_spill. Qed.
Print Assumptions C06_store_spills_refuted.

(** In the reactor's geometry: 64 one-byte messages, take one, store one
    message of exactly 4096 bytes (accepted), take the next: the second message is
    no longer [5] but empty. *)
Definition spill_run (tail : list Z) : option (list sout) :=
  match st_new 4096 64 15 (fun _ => 0) with
  | None => None
  | Some s =>
      option_map (fun r => skipn 64 (snd r))
        (st_run 4096 s (repeat (SPush [5]) 64 ++
           [SPop; SPush (repeat 1 (Z.to_nat 4088) ++ tail); SPop]))
  end.

Theorem C06_corrupted_message_refuted :
  spill_run (repeat 0 8) = Some [STaken (Some [5]); SAccepted true; STaken (Some [])].
Proof. vm_compute. reflexivity. Qed.
Print Assumptions C06_corrupted_message_refuted.

(** With other contents the next take copies outside every buffer. *)
Theorem C06_out_of_bounds_refuted : spill_run (repeat 255 8) = None.
Proof. vm_compute. reflexivity. Qed.
Print Assumptions C06_out_of_bounds_refuted.
