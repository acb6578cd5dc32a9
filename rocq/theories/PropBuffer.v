(** Properties C01-C04: the buffer module. *)
From Coq Require Import List NArith ZArith Arith Bool Lia.
From Verif Require Import Base Lib Buffer BufferSpec BufferProofs.
Import ListNotations.
Local Open Scope Z_scope.

(** C01.  After initialisation of any storage (fresh or previously used), every
    sequence of calls with non-negative sizes gives exactly the answers of the
    bounded-queue specification. *)
Theorem C01_buffers_are_bounded_fifos : forall b ops,
  wf_storage b -> Forall sane ops ->
  exists b', buf_run ops (buffer_init b) = Ok (fst (spec_run ops []), b').
Proof.
  intros. destruct (run_refines ops [] _ (R_init b H) H0) as [b' [E _]]. eauto.
Qed.
Print Assumptions C01_buffers_are_bounded_fifos.

(** Two buffers, wrap-around, overflow of the first, unknown handle. *)
Example C01_example :
  let ops := [BNew 2; BNew 3; BPut 0 1; BPut 0 2; BPut 0 3; BGet 0; BPut 0 4; BPut 1 9;
              BGet 0; BGet 0; BGet 0; BGet 1; BGet 7; BPut (-1) 5] in
  Forall sane ops /\ wf_storage bufs_zero /\
  observe bufs_zero ops =
    Some [RHandle 0; RHandle 1; RUnit; RUnit; RUnit; RCode 1; RUnit; RUnit;
          RCode 2; RCode 4; RCode 160; RCode 9; RCode 160; RUnit].
Proof. cbv zeta. split; [|split]; [|split|]; try reflexivity. repeat constructor; simpl; lia. Qed.

(** C02.  No undefined behaviour for non-negative sizes, whatever the handles. *)
Theorem C02_buffer_calls_never_undefined : forall b ops u,
  wf_storage b -> Forall sane ops -> buf_run ops (buffer_init b) <> Bad u.
Proof.
  intros. destruct (run_refines ops [] _ (R_init b H) H0) as [b' [E _]]. rewrite E. discriminate.
Qed.
Print Assumptions C02_buffer_calls_never_undefined.

(** The hypothesis on sizes cannot be dropped: the parameter is an int16_t and
    negative values are accepted. *)
Theorem C02_negative_size_refuted : exists ops,
  buf_run ops (buffer_init bufs_zero) = Bad UBufOob.
Proof. exists [BNew (-1); BNew 1]. vm_compute. reflexivity. Qed.
Print Assumptions C02_negative_size_refuted.

(** C03.  A call [o] that does not name handle [h] does not change what can be
    read through [h]. *)
Theorem C03_buffers_are_isolated : forall b ops o h n,
  wf_storage b -> Forall sane ops -> sane o -> not_on h o ->
  exists rs r ds,
    observe b ops = Some rs /\
    observe b (ops ++ repeat (BGet h) n) = Some (rs ++ ds) /\
    observe b (ops ++ o :: repeat (BGet h) n) = Some (rs ++ r :: ds).
Proof. exact isolation. Qed.
Print Assumptions C03_buffers_are_isolated.

Example C03_example :
  let ops := [BNew 2; BNew 2; BPut 0 7; BPut 1 8] in
  Forall sane ops /\ not_on 0 (BPut 1 9) /\
  observe bufs_zero (ops ++ BPut 1 9 :: repeat (BGet 0) 2) =
  Some [RHandle 0; RHandle 1; RUnit; RUnit; RUnit; RCode 7; RCode 160].
Proof. cbv zeta. split; [|split]; try reflexivity. repeat constructor; simpl; lia. simpl; lia. Qed.

(** With a negative size two buffers overlap. *)
Theorem C03_negative_size_refuted : exists ops o h,
  not_on h o /\
  observe bufs_zero (ops ++ [BGet h]) = Some [RHandle 0; RHandle 1; RHandle 2; RUnit; RCode 65] /\
  observe bufs_zero (ops ++ [o; BGet h]) = Some [RHandle 0; RHandle 1; RHandle 2; RUnit; RUnit; RCode 66].
Proof.
  exists [BNew 4; BNew (-4); BNew 4; BPut 0 65], (BPut 2 66), 0.
  split; [simpl; lia|]. split; vm_compute; reflexivity.
Qed.
Print Assumptions C03_negative_size_refuted.

(** C04.  A request of size [n >= 0] is granted iff fewer than four buffers
    exist and the granted sizes plus [n] do not exceed the pool; a granted
    request gets the next unused handle. *)
Theorem C04_allocation_succeeds_iff_room : forall b ops n,
  wf_storage b -> Forall sane ops -> 0 <= n ->
  exists rs h,
    observe b ops = Some rs /\
    observe b (ops ++ [BNew n]) = Some (rs ++ [RHandle h]) /\
    let sizes := granted ops rs in
    if (length sizes <? 4)%nat && (total sizes + n <=? 144)
    then h = Z.of_nat (length sizes) else h = -1.
Proof. exact allocation. Qed.
Print Assumptions C04_allocation_succeeds_iff_room.

Example C04_example :
  observe bufs_zero [BNew 16; BNew 129; BNew 128; BNew 0; BNew 1] =
  Some [RHandle 0; RHandle (-1); RHandle 1; RHandle 2; RHandle (-1)].
Proof. reflexivity. Qed.

(** Negative requests are granted and make room that does not exist. *)
Theorem C04_negative_size_refuted : exists ops,
  observe bufs_zero ops = Some [RHandle 0; RHandle 1; RHandle 2] /\
  total (granted ops [RHandle 0; RHandle 1; RHandle 2]) = 144 /\
  In (BNew 144) (removelast ops) /\ last ops (BGet 0) = BNew 144.
Proof. exists [BNew 144; BNew (-144); BNew 144]. repeat split; vm_compute; auto. Qed.
Print Assumptions C04_negative_size_refuted.
