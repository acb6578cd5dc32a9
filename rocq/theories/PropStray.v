(** Stray readings, under any keymaps: what the firmware does depends on the
    debounced keys only, and up to nine stray readings of a key are never
    noticed (C140). *)
From Coq Require Import List NArith ZArith Arith Bool Lia.
From Coq Require Import ZifyBool ZifyNat ZifyN.
From Verif Require Import Base Lib Buffer Repeat Devices Modifiers Hook KeymapData Asdf KeySpec Obs PropDebounce
     Custom CustomSpec CustomRef PropCustom PropEvents PropFlow PropExact PropSession PropAllCalls PropLamps PropNoLoss PropOnce PropRate PropDeaf.
Import ListNotations.

(** ** Specification *)
(** How often a key was read closed. *)
Definition closed_readings (rds : list (nat -> N)) (r c : nat) : nat := length (filter (fun rd => reading rd r c) rds).
(** Both runs take the same keys of the matrix for pressed after every scan, and
    read those that stay pressed alike. *)
Definition same_view (R C : nat) (rds rds' : list (nat -> N)) : Prop :=
  length rds = length rds' /\
  forall r c, r < R -> c < C ->
    (forall k, k <= length rds -> accepted_after (firstn k rds) r c = accepted_after (firstn k rds') r c) /\
    (forall k rd rd', nth_error rds k = Some rd -> nth_error rds' k = Some rd' ->
       accepted_after (firstn k rds) r c = true -> accepted_after (firstn (S k) rds) r c = true -> reading rd r c = reading rd' r c).

(** ** Proofs *)
Lemma view_work : forall kbs R C rds rds' pre pre' o, length rds = length rds' ->
  (forall r c, r < R -> c < C ->
    (forall k, k <= length rds -> accepted_after (pre ++ firstn k rds) r c = accepted_after (pre' ++ firstn k rds') r c) /\
    (forall k rd rd', nth_error rds k = Some rd -> nth_error rds' k = Some rd' ->
       accepted_after (pre ++ firstn k rds) r c = true -> accepted_after (pre ++ firstn (S k) rds) r c = true -> reading rd r c = reading rd' r c)) ->
  works_on kbs R C pre rds o = works_on kbs R C pre' rds' o.
Proof.
  intros kbs R C rds. induction rds as [|rd rds IH]; intros [|rd' rds'] pre pre' o L H; try discriminate L; [reflexivity|]. cbn [works_on].
  assert (E : scan_moves R C pre rd = scan_moves R C pre' rd').
  { unfold scan_moves.
    assert (X : forall r c, r < R -> c < C -> key_moves pre rd r c = key_moves pre' rd' r c).
    { intros r c HR HC. destruct (H r c HR HC) as [HA HB].
      assert (A0 := HA 0 ltac:(lia)). assert (A1 := HA 1 ltac:(cbn [length]; lia)). assert (B := HB 0 rd rd' eq_refl eq_refl). cbn [firstn] in A0, A1, B. rewrite !app_nil_r in *.
      unfold key_moves. rewrite <- A0, <- A1. destruct (accepted_after pre r c), (accepted_after (pre ++ [rd]) r c); try reflexivity. rewrite B by reflexivity. reflexivity. }
    clear -X. assert (Y : forall rs, (forall r, In r rs -> r < R) -> flat_map (fun r => flat_map (key_moves pre rd r) (seq 0 C)) rs = flat_map (fun r => flat_map (key_moves pre' rd' r) (seq 0 C)) rs).
    { intros rs. induction rs as [|r rs IH]; intros HR; [reflexivity|]. cbn [flat_map]. rewrite IH by (intros; apply HR; right; assumption). f_equal.
      assert (Z : forall cs, (forall c, In c cs -> c < C) -> flat_map (key_moves pre rd r) cs = flat_map (key_moves pre' rd' r) cs).
      { intros cs. induction cs as [|c cs IHc]; intros HC; [reflexivity|]. cbn [flat_map]. rewrite IHc by (intros; apply HC; right; assumption). rewrite X; [reflexivity|apply HR; left; reflexivity|apply HC; left; reflexivity]. }
      apply Z. intros c I. apply in_seq in I. lia. }
    apply Y. intros r I. apply in_seq in I. lia. }
  rewrite E. apply IH; [injection L; auto|]. intros r c HR HC. destruct (H r c HR HC) as [HA HB]. split.
  - intros k Hk. assert (A := HA (S k) ltac:(cbn [length]; lia)). cbn [firstn] in A. rewrite <- !app_assoc. exact A.
  - intros k q q' N N' A0 A1. rewrite <- app_assoc in A0, A1. apply (HB (S k) q q' N N'); [exact A0|exact A1].
Qed.

(** ** C140 *)
(** Nothing but the debounced keys, and the readings of those held, matters. *)
Theorem C140_debounced_view : forall R C kbs rds rds' s s', sound_firmware R kbs -> same_size R C kbs ->
  same_view R C rds rds' -> c_run kbs rds = Ok s -> c_run kbs rds' = Ok s' -> events s = events s'.
Proof.
  intros R C kbs rds rds' s s' HS HZ [L V] E E'. rewrite (C108_all_calls R C kbs rds s HS HZ E), (C108_all_calls R C kbs rds' s' HS HZ E'). unfold calls_of_run. f_equal.
  apply view_work; [exact L|]. exact V.
Qed.
Print Assumptions C140_debounced_view.

Lemma few_closed : forall l, differing false l <= 9 -> dstate l = (false, (10 - N.of_nat (differing false l))%N).
Proof.
  intros l. induction l as [|b l IH] using rev_ind; intros H; [reflexivity|]. rewrite differing_snoc in *. rewrite dstate_snoc, IH by lia. unfold db. cbn [fst snd].
  destruct b; cbn [Bool.eqb] in *.
  - replace (_ =? 1)%N with false by lia. f_equal. lia.
  - f_equal. lia.
Qed.
Lemma few_open : forall rds r c k, closed_readings rds r c <= 9 -> accepted_after (firstn k rds) r c = false.
Proof.
  intros rds r c k H. unfold accepted_after. rewrite few_closed; [reflexivity|].
  assert (X : forall l, differing false (key_readings l r c) = closed_readings l r c).
  { intros l. unfold differing, key_readings, closed_readings. induction l as [|rd l IH]; [reflexivity|]. cbn [map filter]. destruct (reading rd r c); cbn [Bool.eqb negb length]; rewrite IH; reflexivity. }
  rewrite X. transitivity (closed_readings rds r c); [|exact H]. unfold closed_readings. rewrite <- (firstn_skipn k rds) at 2. rewrite filter_app, app_length. lia.
Qed.
Lemma alike_view : forall rds rds' r c, Forall2 (fun rd rd' => reading rd r c = reading rd' r c) rds rds' -> forall k, accepted_after (firstn k rds) r c = accepted_after (firstn k rds') r c.
Proof.
  intros rds rds' r c F k. unfold accepted_after. f_equal. f_equal. unfold key_readings. revert k. induction F as [|rd rd' rds rds' E F IH]; intros [|k]; try reflexivity. cbn [firstn map]. rewrite IH, E. reflexivity.
Qed.
(** Keys read closed at most nine times altogether, however far apart, might as
    well not have been read closed at all. *)
Theorem C140_stray_readings : forall R C kbs (stray : nat -> nat -> bool) rds rds' s s', sound_firmware R kbs -> same_size R C kbs ->
  Forall2 (alike_on R C (fun r c => negb (stray r c))) rds rds' ->
  (forall r c, r < R -> c < C -> stray r c = true -> closed_readings rds r c <= 9 /\ closed_readings rds' r c <= 9) ->
  c_run kbs rds = Ok s -> c_run kbs rds' = Ok s' -> events s = events s'.
Proof.
  intros R C kbs stray rds rds' s s' HS HZ F HC E E'. apply (C140_debounced_view R C kbs rds rds' s s' HS HZ); [|exact E|exact E']. split; [clear -F; induction F; cbn [length]; congruence|].
  intros r c Hr Hc. destruct (stray r c) eqn:ST.
  - destruct (HC r c Hr Hc ST) as [H1 H2]. split.
    + intros k _. rewrite !few_open by assumption. reflexivity.
    + intros k rd rd' _ _ A _. rewrite few_open in A by assumption. discriminate A.
  - assert (F' : Forall2 (fun rd rd' => reading rd r c = reading rd' r c) rds rds').
    { clear -F Hr Hc ST. induction F as [|rd rd' l l' A F IH]; constructor; [|exact IH]. apply A; [exact Hr|exact Hc|]. rewrite ST. reflexivity. }
    split.
    + intros k _. apply alike_view. exact F'.
    + intros k rd rd' N N' _ _. clear -F' N N'. revert k N N'. induction F' as [|q q' l l' A F IH]; intros [|k] N N'; cbn [nth_error] in N, N'; try discriminate N.
      * injection N as <-. injection N' as <-. exact A.
      * exact (IH k N N').
Qed.
Print Assumptions C140_stray_readings.

(** Nine spikes, 20 scans apart, on the second of two letters while the first is
    struck; and ten spikes. *)
Definition spiked (n m : nat) : list (nat -> N) := concat (repeat (hold 19 [] ++ hold 1 [(0, 1)]) n) ++ concat (repeat (hold 20 []) m) ++ hold 15 [(0, 0)] ++ hold 15 [].
Definition pair_kbs (i : N) : option (list setup_cmd) :=
  let keys := [97; 98]%N in
  if (i =? 0)%N then Some [SAddMap keys 0 1 2; SAddMap keys 1 1 2; SAddMap keys 2 1 2; SAddMap keys 3 1 2] else None.
Lemma pair_sound : sound_firmware 1 pair_kbs /\ same_size 1 2 pair_kbs.
Proof.
  split; [split|].
  - eexists. reflexivity.
  - intros i cs E1. unfold pair_kbs in E1. cbv zeta in E1. destruct (N.eqb_spec i 0); inv E1. split; [lia|]. apply (sound_b_ok 1 1 2); vm_compute; reflexivity.
  - intros i cs mi E1 Hm. unfold pair_kbs in E1. cbv zeta in E1. destruct (i =? 0)%N; inv E1. do 4 (destruct mi as [|mi]; [eexists; vm_compute; reflexivity|]). lia.
Qed.
Definition beside (r c : nat) : bool := c =? 1.
Lemma spiked_alike : Forall2 (alike_on 1 2 (fun r c => negb (beside r c))) (spiked 9 1) (spiked 0 10) /\ Forall2 (alike_on 1 2 (fun r c => negb (beside r c))) (spiked 10 0) (spiked 0 10).
Proof.
  assert (X : forall l l' : list (nat -> N), map (fun rd => reading rd 0 0) l = map (fun rd => reading rd 0 0) l' -> Forall2 (alike_on 1 2 (fun r c => negb (beside r c))) l l').
  { intros l. induction l as [|rd l IH]; intros [|rd' l'] E; try discriminate E; constructor; injection E; intros E1 E0; [|exact (IH l' E1)].
    intros r c Hr Hc B. assert (r = 0) as -> by lia. assert (c = 0) as -> by (unfold beside in B; lia). exact E0. }
  split; apply X; vm_compute; reflexivity.
Qed.
Example C140_example :
  Forall2 (alike_on 1 2 (fun r c => negb (beside r c))) (spiked 9 1) (spiked 0 10) /\
  (forall r c, r < 1 -> c < 2 -> beside r c = true -> closed_readings (spiked 9 1) r c <= 9 /\ closed_readings (spiked 0 10) r c <= 9) /\
  obs sent (c_run pair_kbs (spiked 9 1)) = Some [97]%N /\ obs sent (c_run pair_kbs (spiked 0 10)) = Some [97]%N.
Proof.
  split; [apply spiked_alike|]. split; [|split; vm_compute; reflexivity].
  intros r c Hr Hc B. assert (r = 0) as -> by lia. assert (c = 1) as -> by (unfold beside in B; lia). split; apply Nat.leb_le; vm_compute; reflexivity.
Qed.
(** Ten are noticed, though no two of them were in succession. *)
Theorem C140_ten_spikes_refuted : exists kbs stray rds rds' s s', sound_firmware 1 kbs /\ same_size 1 2 kbs /\
  Forall2 (alike_on 1 2 (fun r c => negb (stray r c))) rds rds' /\
  (forall r c, r < 1 -> c < 2 -> stray r c = true -> closed_readings rds r c <= 10 /\ closed_readings rds' r c <= 10) /\
  (forall k rd rd', nth_error rds k = Some rd -> nth_error rds (S k) = Some rd' -> reading rd 0 1 && reading rd' 0 1 = false) /\
  c_run kbs rds = Ok s /\ c_run kbs rds' = Ok s' /\ sent s = [98; 97]%N /\ sent s' = [97]%N.
Proof.
  exists pair_kbs, beside, (spiked 10 0), (spiked 0 10).
  assert (X : forall (o : outcome kb) (P : kb -> Prop), match o with Ok s => P s | Bad _ => False end -> exists s, o = Ok s /\ P s).
  { intros [s|u] P H; [eauto|contradiction]. }
  destruct (X (c_run pair_kbs (spiked 10 0)) (fun s => sent s = [98; 97]%N)) as [s [E1 E2]]; [vm_compute; reflexivity|].
  destruct (X (c_run pair_kbs (spiked 0 10)) (fun s => sent s = [97]%N)) as [s' [E1' E2']]; [vm_compute; reflexivity|].
  exists s, s'. split; [apply pair_sound|]. split; [apply pair_sound|]. split; [apply spiked_alike|]. split; [|split].
  - intros r c Hr Hc B. assert (r = 0) as -> by lia. assert (c = 1) as -> by (unfold beside in B; lia). split; apply Nat.leb_le; vm_compute; reflexivity.
  - assert (Y : forall l : list (nat -> N), forallb (fun p => negb (fst p && snd p)) (combine (map (fun rd => reading rd 0 1) l) (tl (map (fun rd => reading rd 0 1) l))) = true ->
      forall k rd rd', nth_error l k = Some rd -> nth_error l (S k) = Some rd' -> reading rd 0 1 && reading rd' 0 1 = false).
    { intros l. induction l as [|q l IH]; intros H [|k] rd rd' N N'; cbn [nth_error] in N, N'; try discriminate N.
      - injection N as <-. destruct l as [|q' l]; [discriminate N'|]. injection N' as <-. cbn [map tl combine forallb fst snd] in H. apply andb_true_iff in H as [H _]. apply negb_true_iff. exact H.
      - destruct l as [|q' l]; [destruct k; discriminate N|]. apply (IH ltac:(cbn [map tl combine forallb] in H |- *; apply andb_true_iff in H as [_ H]; exact H) k rd rd' N N'). }
    apply Y. vm_compute. reflexivity.
  - split; [exact E1|]. split; [exact E1'|]. split; assumption.
Qed.
Print Assumptions C140_ten_spikes_refuted.
