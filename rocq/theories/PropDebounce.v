(** Debouncing: C24-C27; idle scans: C51; freedom from undefined behaviour: C52. *)
From Coq Require Import List NArith ZArith Arith Bool Lia.
From Coq Require Import ZifyBool ZifyNat ZifyN.
From Verif Require Import Base Lib Buffer BufferSpec BufferProofs Repeat Devices DevSpec DevProofs
     Modifiers Hook KeymapData Asdf KeySpec KeyRef Obs Frames.
Import ListNotations.
Local Open Scope outcome_scope.

(** ** Facts about one debouncer *)
Definition dstate (l : list bool) : bool * N := fold_left db l (false, 10%N).

Lemma dstate_snoc : forall l b, dstate (l ++ [b]) = db (dstate l) b.
Proof. intros. unfold dstate. rewrite fold_left_app. reflexivity. Qed.

(** Readings of [l] that differ from [b]. *)
Definition differing (b : bool) (l : list bool) : nat := length (filter (fun x => negb (Bool.eqb x b)) l).

Lemma differing_snoc : forall b l x,
  differing b (l ++ [x]) = differing b l + (if Bool.eqb x b then 0 else 1).
Proof.
  intros. unfold differing. rewrite filter_app, app_length. cbn. destruct (Bool.eqb x b); cbn; lia.
Qed.

Lemma dstate_since : forall l, exists pre mid, l = pre ++ mid /\
  (pre = [] \/ exists p x, pre = p ++ [x] /\ fst (dstate p) <> fst (dstate pre)) /\
  (forall n, n <= length mid -> fst (dstate (pre ++ firstn n mid)) = fst (dstate l)) /\
  N.to_nat (snd (dstate l)) + differing (fst (dstate l)) mid = 10 /\ (1 <= snd (dstate l) <= 10)%N.
Proof.
  apply rev_ind.
  - exists [], []. cbn. repeat split; auto; try lia. intros. rewrite firstn_nil. reflexivity.
  - intros b l (pre&mid&E&C&SS&NN&BB). rewrite dstate_snoc.
    set (st := dstate l) in *. unfold db. destruct (Bool.eqb b (fst st)) eqn:EB.
    + exists pre, (mid ++ [b]). rewrite E at 1. rewrite app_assoc. split; auto. split; auto. split.
      * intros n Hn. rewrite app_length in Hn. cbn in Hn. destruct (Nat.eq_dec n (length mid + 1)).
        -- rewrite firstn_all2 by (rewrite app_length; cbn; lia). rewrite app_assoc, <- E, dstate_snoc.
           fold st. unfold db. rewrite EB. auto.
        -- rewrite firstn_app. replace (n - length mid) with 0 by lia. cbn [firstn]. rewrite app_nil_r. apply SS. lia.
      * rewrite differing_snoc, EB. split; auto. lia.
    + destruct (N.eqb_spec (snd st) 1) as [e|ne].
      * exists (l ++ [b]), []. rewrite app_nil_r. split; auto. split.
        { right. exists l, b. split; auto. rewrite dstate_snoc. fold st. unfold db. rewrite EB.
          rewrite e. cbn. intros X. rewrite X in EB. destruct b; discriminate. }
        split.
        { intros n Hn. rewrite firstn_nil, app_nil_r, dstate_snoc. fold st. unfold db. rewrite EB, e. reflexivity. }
        cbn. split; lia.
      * exists pre, (mid ++ [b]). rewrite E at 1. rewrite app_assoc. split; auto. split; auto. cbn [fst snd]. split.
        -- intros n Hn. rewrite app_length in Hn. cbn in Hn. destruct (Nat.eq_dec n (length mid + 1)).
           ++ rewrite firstn_all2 by (rewrite app_length; cbn; lia). rewrite app_assoc, <- E, dstate_snoc.
              fold st. unfold db. rewrite EB. replace (snd st =? 1)%N with false by lia. auto.
           ++ rewrite firstn_app. replace (n - length mid) with 0 by lia. cbn [firstn]. rewrite app_nil_r. apply SS. lia.
        -- rewrite differing_snoc, EB. split; lia.
Qed.
Lemma dstate_range : forall l, (1 <= snd (dstate l) <= 10)%N.
Proof. intros. destruct (dstate_since l) as (?&?&?&?&?&?&?). auto. Qed.

(** A stretch of [n] identical readings that differ from the accepted state. *)
Lemma dstate_stretch : forall n l b, fst (dstate l) = negb b ->
  dstate (l ++ repeat b n) =
    if (N.of_nat n <? snd (dstate l))%N then (negb b, (snd (dstate l) - N.of_nat n)%N) else (b, 10%N).
Proof.
  induction n as [|n IH]; intros l b H.
  - cbn [repeat]. rewrite app_nil_r. pose proof (dstate_range l).
    replace (N.of_nat 0 <? snd (dstate l))%N with true by lia. rewrite <- H.
    destruct (dstate l); cbn. f_equal. lia.
  - replace (repeat b (S n)) with (repeat b n ++ [b]) by (symmetry; apply repeat_cons).
    rewrite app_assoc, dstate_snoc, IH by auto. unfold db.
    destruct (N.ltb_spec (N.of_nat n) (snd (dstate l))); cbn [fst snd].
    + rewrite eqb_negb2. destruct (N.eqb_spec (snd (dstate l) - N.of_nat n) 1).
      * replace (N.of_nat (S n) <? snd (dstate l))%N with false by lia. auto.
      * replace (N.of_nat (S n) <? snd (dstate l))%N with true by lia. f_equal. lia.
    + rewrite Bool.eqb_reflx. replace (N.of_nat (S n) <? snd (dstate l))%N with false by lia. auto.
Qed.

(** Transfer: the accepted state of a key in a run. *)
Lemma down_hist : forall rds s r c, run rds = Ok s -> r < 9 -> c < 8 ->
  down s r c = fst (dstate (key_readings rds r c)).
Proof.
  intros rds s r c H Hr Hc. destruct (reach _ _ H) as [a [A RL]].
  rewrite (down_ok _ _ _ _ RL) by lia. unfold dstate. rewrite <- (key_hist _ _ _ _ A Hr Hc). reflexivity.
Qed.

Lemma run_prefix : forall r1 r2 s, run (r1 ++ r2) = Ok s -> exists s1, run r1 = Ok s1.
Proof. intros r1 r2 s H. rewrite run_app in H. destruct (run r1); [eauto|discriminate]. Qed.

Lemma firstn_map_readings : forall rds r c n, firstn n (key_readings rds r c) = key_readings (firstn n rds) r c.
Proof. intros. unfold key_readings. apply firstn_map. Qed.
Lemma key_readings_app : forall x y r c, key_readings (x ++ y) r c = key_readings x r c ++ key_readings y r c.
Proof. intros. apply map_app. Qed.

(** ** C24 *)

(** The accepted state of the key changed on the last scan of [rds]. *)
Definition just_changed (rds : list (nat -> N)) (r c : nat) : Prop :=
  exists p rd s1 s2, rds = p ++ [rd] /\ run p = Ok s1 /\ run rds = Ok s2 /\ down s1 r c <> down s2 r c.

(** False of the code: nine closed readings, one open, one closed. *)
Theorem C24_consecutive_refuted : exists rds rd s s',
  run rds = Ok s /\ run (rds ++ [rd]) = Ok s' /\ down s 0 1 = false /\ down s' 0 1 = true /\
  length rds = 10 /\ key_readings (rds ++ [rd]) 0 1 = repeat true 9 ++ [false; true].
Proof.
  exists (hold 9 [(0, 1)] ++ hold 1 []), (matrix [(0, 1)]).
  assert (X : obs (fun s => down s 0 1) (run (hold 9 [(0, 1)] ++ hold 1 [])) = Some false) by (vm_compute; reflexivity).
  assert (Y : obs (fun s => down s 0 1) (run ((hold 9 [(0, 1)] ++ hold 1 []) ++ [matrix [(0, 1)]])) = Some true)
    by (vm_compute; reflexivity).
  apply obs_some in X. destruct X as [s [E1 X]]. apply obs_some in Y. destruct Y as [s' [E2 Y]].
  exists s, s'. split; auto.
Qed.
Print Assumptions C24_consecutive_refuted.

(** What holds: an accepted change is preceded by exactly 10 readings of the new
    state since the previous change (or power-on), the last of them on the
    accepting scan.  Missing: they need not be consecutive. *)
Theorem C24_ten_readings_partial : forall rds rd s s' r c, r < 9 -> c < 8 ->
  run rds = Ok s -> run (rds ++ [rd]) = Ok s' -> down s' r c <> down s r c ->
  reading rd r c = down s' r c /\
  exists pre mid, rds = pre ++ mid /\ (pre = [] \/ just_changed pre r c) /\
    (forall n s1, n <= length mid -> run (pre ++ firstn n mid) = Ok s1 -> down s1 r c = down s r c) /\
    differing (down s r c) (key_readings (mid ++ [rd]) r c) = 10.
Proof.
  intros rds rd s s' r c Hr Hc E E' HN.
  rewrite (down_hist _ _ _ _ E' Hr Hc) in *. rewrite (down_hist _ _ _ _ E Hr Hc) in *.
  rewrite key_readings_app in *. change (key_readings [rd] r c) with [reading rd r c] in *.
  rewrite dstate_snoc in *. set (L := key_readings rds r c) in *.
  destruct (dstate_since L) as (pre&mid&EL&C&SS&NN&BB).
  unfold db in *. destruct (Bool.eqb (reading rd r c) (fst (dstate L))) eqn:EB; [congruence|].
  destruct (N.eqb_spec (snd (dstate L)) 1); [|cbn in HN; congruence].
  split; [reflexivity|].
  exists (firstn (length pre) rds), (skipn (length pre) rds).
  assert (K1 : key_readings (firstn (length pre) rds) r c = pre).
  { rewrite <- firstn_map_readings. fold L. rewrite EL, firstn_app, Nat.sub_diag, firstn_all. cbn. apply app_nil_r. }
  assert (K2 : key_readings (skipn (length pre) rds) r c = mid).
  { unfold key_readings. rewrite <- skipn_map. fold (key_readings rds r c). fold L.
    rewrite EL, skipn_app, Nat.sub_diag, skipn_all. reflexivity. }
  split; [symmetry; apply firstn_skipn|].
  assert (LEN : length pre <= length rds).
  { assert (length L = length rds) by (unfold L, key_readings; apply map_length).
    rewrite EL, app_length in H. lia. }
  split.
  { destruct C as [C|(p&x&C&D)].
    - left. subst pre. reflexivity.
    - right. unfold just_changed.
      assert (LP : length pre = length p + 1) by (rewrite C, app_length; reflexivity).
      destruct (nth_error rds (length p)) as [xr|] eqn:EX; [|apply nth_error_None in EX; lia].
      exists (firstn (length p) rds), xr.
      assert (F : firstn (length pre) rds = firstn (length p) rds ++ [xr]).
      { rewrite LP, Nat.add_1_r. clear -EX. revert rds EX. generalize (length p).
        induction n as [|n IH]; intros [|y l] E; cbn in *; try discriminate; [inv E; auto|].
        f_equal. apply IH; auto. }
      assert (R1 : exists s1, run (firstn (length p) rds) = Ok s1).
      { apply (run_prefix _ (skipn (length p) rds) s). rewrite firstn_skipn. auto. }
      assert (R2 : exists s2, run (firstn (length pre) rds) = Ok s2).
      { apply (run_prefix _ (skipn (length pre) rds) s). rewrite firstn_skipn. auto. }
      destruct R1 as [s1 R1], R2 as [s2 R2]. exists s1, s2. split; auto. split; auto. split; auto.
      rewrite (down_hist _ _ _ _ R1 Hr Hc), (down_hist _ _ _ _ R2 Hr Hc), K1.
      rewrite <- firstn_map_readings. fold L. rewrite EL, firstn_app.
      replace (length p - length pre) with 0 by lia. cbn [firstn]. rewrite app_nil_r, C at 1.
      rewrite firstn_app, Nat.sub_diag, firstn_all. cbn [firstn]. rewrite app_nil_r. exact D. }
  split.
  { intros n s1 Hn E1. rewrite (down_hist _ _ _ _ E1 Hr Hc), key_readings_app, K1, <- firstn_map_readings, K2.
    apply SS. rewrite skipn_length in Hn. unfold L in EL. apply (f_equal (@length bool)) in EL.
    unfold key_readings in EL. rewrite map_length, app_length in EL. lia. }
  rewrite key_readings_app. change (key_readings [rd] r c) with [reading rd r c].
  rewrite K2, differing_snoc, EB. lia.
Qed.
Print Assumptions C24_ten_readings_partial.

(** A press whose ten readings are spread over twenty scans. *)
Example C24_example :
  obs (fun s => down s 0 1) (run (concat (repeat (hold 1 [(0, 1)] ++ hold 1 []) 9))) = Some false /\
  obs (fun s => down s 0 1) (run (concat (repeat (hold 1 [(0, 1)] ++ hold 1 []) 9) ++ [matrix [(0, 1)]])) = Some true.
Proof. vm_compute. auto. Qed.

(** ** C25 *)
Theorem C25_persistent_change_accepted : forall pre mid s s' r c, r < 9 -> c < 8 ->
  run pre = Ok s -> run (pre ++ mid) = Ok s' -> length mid = 10 ->
  Forall (fun rd => reading rd r c = negb (down s r c)) mid ->
  down s' r c = negb (down s r c).
Proof.
  intros pre mid s s' r c Hr Hc E E' HL HF.
  rewrite (down_hist _ _ _ _ E' Hr Hc), key_readings_app.
  pose proof (down_hist _ _ _ _ E Hr Hc) as D. set (b := negb (down s r c)) in *.
  assert (X : key_readings mid r c = repeat b 10).
  { rewrite <- HL. clear -HF. induction HF as [|x l H HF IH]; cbn; auto. rewrite H. f_equal. exact IH. }
  rewrite X. assert (D' : fst (dstate (key_readings pre r c)) = negb b) by (unfold b; rewrite negb_involutive; auto).
  rewrite dstate_stretch by auto. pose proof (dstate_range (key_readings pre r c)).
  replace (N.of_nat 10 <? snd (dstate (key_readings pre r c)))%N with false by lia. reflexivity.
Qed.
Print Assumptions C25_persistent_change_accepted.

Lemma readings_all : forall mid r c b, Forall (fun rd => reading rd r c = b) mid ->
  key_readings mid r c = repeat b (length mid).
Proof. intros mid r c b HF. induction HF as [|x l H HF IH]; cbn; auto. rewrite H. f_equal. exact IH. Qed.

(** The key was settled: after its last change (or power-on) it was read in its
    accepted state only.  Then nine differing scans are not enough. *)
Theorem C25_not_before_tenth : forall pre quiet mid s s' r c, r < 9 -> c < 8 ->
  pre = [] \/ just_changed pre r c ->
  run pre = Ok s -> Forall (fun rd => reading rd r c = down s r c) quiet ->
  run (pre ++ quiet ++ mid) = Ok s' -> length mid < 10 ->
  Forall (fun rd => reading rd r c = negb (down s r c)) mid ->
  down s' r c = down s r c.
Proof.
  intros pre quiet mid s s' r c Hr Hc HP E HQ E' HL HF.
  assert (T : snd (dstate (key_readings pre r c)) = 10%N).
  { destruct HP as [->|(p&rd&s1&s2&E0&E1&E2&HN)]; [reflexivity|].
    rewrite (down_hist _ _ _ _ E1 Hr Hc), (down_hist _ _ _ _ E2 Hr Hc) in HN. rewrite E0 in *.
    rewrite key_readings_app in *. change (key_readings [rd] r c) with [reading rd r c] in *.
    rewrite dstate_snoc in *. unfold db in *. destruct (Bool.eqb _ _); [congruence|].
    destruct (_ =? 1)%N; [reflexivity|]. cbn in HN. congruence. }
  pose proof (down_hist _ _ _ _ E Hr Hc) as D.
  rewrite (down_hist _ _ _ _ E' Hr Hc), !key_readings_app, (readings_all _ _ _ _ HQ), (readings_all _ _ _ _ HF).
  set (l := key_readings pre r c) in *. set (b := down s r c) in *.
  assert (Q : forall n, dstate (l ++ repeat b n) = dstate l).
  { induction n as [|n IH]; cbn [repeat]; [rewrite app_nil_r; auto|].
    change (b :: repeat b n) with (repeat b (S n)).
    replace (repeat b (S n)) with (repeat b n ++ [b]) by (symmetry; apply repeat_cons).
    rewrite app_assoc, dstate_snoc, IH. unfold db. rewrite <- D, Bool.eqb_reflx. reflexivity. }
  rewrite app_assoc, dstate_stretch by (rewrite Q, negb_involutive; auto).
  rewrite Q, T. replace (N.of_nat (length mid) <? 10)%N with true by lia. cbn. apply negb_involutive.
Qed.
Print Assumptions C25_not_before_tenth.

(** A reading equal to the accepted state never changes it. *)
Theorem C25_equal_reading_keeps : forall rds rd s s' r c, r < 9 -> c < 8 ->
  run rds = Ok s -> run (rds ++ [rd]) = Ok s' -> reading rd r c = down s r c ->
  down s' r c = down s r c.
Proof.
  intros rds rd s s' r c Hr Hc E E' H.
  rewrite (down_hist _ _ _ _ E' Hr Hc), (down_hist _ _ _ _ E Hr Hc) in *.
  rewrite key_readings_app. change (key_readings [rd] r c) with [reading rd r c].
  rewrite dstate_snoc. unfold db. rewrite H, Bool.eqb_reflx. reflexivity.
Qed.
Print Assumptions C25_equal_reading_keeps.

(** A key pressed and later released, with another key changing meanwhile. *)
Example C25_example :
  obs (fun s => (down s 0 1, down s 3 4)) (run (hold 3 [] ++ hold 9 [(0, 1)])) = Some (false, false) /\
  obs (fun s => (down s 0 1, down s 3 4)) (run (hold 3 [] ++ hold 9 [(0, 1)] ++ hold 1 [(0, 1); (3, 4)])) = Some (true, false) /\
  obs (fun s => (down s 0 1, down s 3 4)) (run (hold 13 [(0, 1)] ++ hold 10 [(3, 4)])) = Some (false, true).
Proof. vm_compute. auto. Qed.

(** ** C26 *)
Theorem C26_keys_independent : forall rds1 rds2 s1 s2 r c, r < 16 -> c < 8 ->
  run rds1 = Ok s1 -> run rds2 = Ok s2 -> key_readings rds1 r c = key_readings rds2 r c ->
  down s1 r c = down s2 r c.
Proof.
  intros rds1 rds2 s1 s2 r c Hr Hc E1 E2 H. destruct (Nat.ltb_spec r 9).
  - rewrite (down_hist _ _ _ _ E1), (down_hist _ _ _ _ E2) by auto. rewrite H. auto.
  - destruct (reach _ _ E1) as [a1 [A1 R1]], (reach _ _ E2) as [a2 [A2 R2]].
    rewrite (down_ok _ _ _ _ R1), (down_ok _ _ _ _ R2) by lia.
    rewrite (high_rows _ _ _ c A1), (high_rows _ _ _ c A2) by lia. auto.
Qed.
Print Assumptions C26_keys_independent.

(** The key (2, 3) alone, and the same key while everything else except the DIP
    switches closes and opens. *)
Example C26_example :
  obs (fun s => down s 2 3) (run (hold 5 [] ++ hold 10 [(2, 3)])) =
  obs (fun s => down s 2 3)
    (run (repeat (fun r => if r =? 8 then 0%N else if r =? 2 then 0xF7%N else 0xFF%N) 5 ++
          repeat (fun r => if r =? 8 then 0%N else 0xFF%N) 10)) /\
  obs (fun s => down s 2 3) (run (hold 5 [] ++ hold 10 [(2, 3)])) = Some true.
Proof. vm_compute. auto. Qed.

(** ** C27 *)
Theorem C27_counters_in_range : forall rds s, run rds = Ok s ->
  length (k_cnt s) = 128 /\ length (k_stable s) = 16 /\
  forall i v, nth_error (k_cnt s) i = Some v -> (1 <= v <= 10)%N.
Proof.
  intros rds s H. destruct (reach _ _ H) as [a [A RL]]. split; [apply (rl_cntlen _ _ RL)|].
  split; [apply (rl_stlen _ _ RL)|]. intros i v E.
  assert (D := Nat.div_mod i 8 ltac:(lia)). assert (M := Nat.mod_upper_bound i 8 ltac:(lia)).
  rewrite D, Nat.mul_comm in E. apply (rl_cnt _ _ RL _ _ _ M E).
Qed.
Print Assumptions C27_counters_in_range.

Theorem C27_scanner_in_bounds : forall rds, run rds <> Bad UScanOob.
Proof. intros rds H. apply run_bad in H. destruct H as [H _]. discriminate. Qed.
Print Assumptions C27_scanner_in_bounds.

(** Counters in mid-flight. *)
Example C27_example :
  obs (fun s => (nth_error (k_cnt s) 1, nth_error (k_cnt s) 2)) (run (hold 9 [(0, 1)])) = Some (Some 1%N, Some 10%N).
Proof. vm_compute. reflexivity. Qed.

(** ** C51 *)
Lemma byte_zero : forall b, (b < 256)%N -> (forall c, c < 8 -> N.testbit b (N.of_nat c) = false) -> b = 0%N.
Proof.
  intros b H HB. apply N.bits_inj. intros n. rewrite N.bits_0.
  destruct (N.ltb_spec n 8).
  - specialize (HB (N.to_nat n) ltac:(lia)). rewrite N2Nat.id in HB. auto.
  - apply N.bits_above_log2. destruct (N.eq_dec b 0); [subst; cbn; lia|].
    apply N.log2_lt_pow2; [lia|]. apply N.lt_le_trans with 256%N; auto.
    change 256%N with (2 ^ 8)%N. apply N.pow_le_mono_r; lia.
Qed.

Lemma idle_cols : forall n r col s fuel, num_cols s = Ok 8 -> n + col = 8 -> n < fuel ->
  cols_loop fuel r col 0 0 s = Ok s.
Proof.
  induction n as [|n IH]; intros r col s fuel HN E HF; (destruct fuel as [|fuel]; [lia|]); cbn [cols_loop];
    rewrite HN; cbn [bind].
  - replace (col <? 8) with false by lia. auto.
  - replace (col <? 8) with true by lia. cbn [N.odd N.div2 bind]. apply IH; auto; lia.
Qed.

(** No key down and none read as closed: the scan returns the very same state,
    event log included. *)
Theorem C51_idle_scan_identity : forall rds s rd, run rds = Ok s ->
  (forall r c, r < 16 -> c < 8 -> down s r c = false) ->
  (forall r c, r < 16 -> c < 8 -> reading rd r c = false) ->
  keyscan rd s = Ok s.
Proof.
  intros rds s rd H HD HR. destruct (reach _ _ H) as [a [A RL]].
  unfold keyscan.
  assert (HG : hook_get HOOK_ROW_SCANNER (k_hook s) = Ok HReadRow) by (rewrite (rl_hook _ _ RL); reflexivity).
  rewrite HG. cbn [bind].
  assert (HE : hook_execute HOOK_EACH_SCAN s = Ok s).
  { unfold hook_execute. rewrite (rl_hook _ _ RL). reflexivity. }
  rewrite HE. cbn [bind].
  assert (G : forall n row fuel, n + row = nrows (a_cur a) -> n < fuel -> rows_loop fuel rd row s = Ok s).
  { induction n as [|n IH]; intros row fuel E HF; (destruct fuel as [|fuel]; [lia|]); cbn [rows_loop];
      rewrite (num_rows_ok _ _ RL); cbn [bind].
    - replace (row <? nrows (a_cur a)) with false by lia. auto.
    - pose proof (rows_ge _ (rl_lt _ _ RL)) as NR.
      replace (row <? nrows (a_cur a)) with true by lia.
      assert (HL : row < length (k_stable s)) by (rewrite (rl_stlen _ _ RL); lia).
      destruct (nth_error_ex _ _ _ HL) as [b EB]. unfold lget. rewrite EB. cbn [bind].
      assert (B0 : b = 0%N).
      { destruct (rl_stable _ _ RL _ _ EB) as [B1 B2]. apply byte_zero; auto.
        intros c Hc. rewrite B2 by auto. rewrite <- (down_ok _ _ _ _ RL) by lia. apply HD; lia. }
      assert (R0 : u8 (rd row) = 0%N).
      { apply byte_zero; [unfold u8; apply N.mod_lt; lia|]. intros c Hc. rewrite u8_bit by auto.
        apply (HR row c); lia. }
      rewrite B0, R0. change (N.lxor 0 0) with 0%N.
      rewrite (idle_cols 8) by (auto; try lia; apply (num_cols_ok _ _ RL)). cbn [bind].
      apply IH; lia. }
  apply (G (nrows (a_cur a))); [lia|].
  pose proof (rows_ge _ (rl_lt _ _ RL)). lia.
Qed.
Print Assumptions C51_idle_scan_identity.

(** With nothing waiting to be sent, neither does the whole tick. *)
Lemma get_empty : forall h l b f, R l b -> nth_error l h = Some f -> f_items f = [] ->
  buffer_get (Z.of_nat h) b = Ok (INVALID, b).
Proof.
  intros h l b f HRR E HF. pose proof HRR as (A1&A2&A3&A4&A5&A6&A7).
  destruct (bufsrep_nth _ _ _ _ _ _ A7 E) as [d [D1 (B1&B2&B3&B4&B5&B6&B7)]].
  unfold buffer_get. destruct (handle_valid (Z.of_nat h) b); auto.
  assert (ZG : zget UBufOob (buffers b) (Z.of_nat h) = Ok d).
  { unfold zget, lget. replace (Z.of_nat h <? 0)%Z with false by lia. rewrite Nat2Z.id, D1. auto. }
  rewrite ZG. cbn [bind].
  rewrite B4, HF. reflexivity.
Qed.

Theorem C51_idle_tick_identity : forall rds s rd, run rds = Ok s ->
  (forall r c, r < 16 -> c < 8 -> down s r c = false) ->
  (forall r c, r < 16 -> c < 8 -> reading rd r c = false) ->
  key_queue s = [] -> msg_queue s = [] ->
  tick rd s = Ok s.
Proof.
  intros rds s rd H HD HR HK HM. pose proof (C51_idle_scan_identity _ _ _ H HD HR) as I.
  destruct (reach _ _ H) as [a [A RL]].
  rewrite (key_queue_ok _ _ RL) in HK. rewrite (msg_queue_ok _ _ RL) in HM.
  unfold tick, next_code. rewrite (rl_hmsg _ _ RL), (rl_hkey _ _ RL).
  pose proof (get_empty 1 _ _ _ (rl_buf _ _ RL) eq_refl HM) as G1. pose proof (get_empty 0 _ _ _ (rl_buf _ _ RL) eq_refl HK) as G0.
  cbn [Z.of_nat Pos.of_succ_nat] in G1, G0. rewrite G1. cbn [bind]. rewrite N.eqb_refl.
  rewrite G0. cbn [bind].
  change (INVALID <? INVALID)%N with false. cbn [bind].
  replace (set_buf (k_buf s) s) with s by (destruct s; reflexivity). exact I.
Qed.
Print Assumptions C51_idle_tick_identity.

(** After typing a letter and releasing it the hypotheses hold. *)
Example C51_example :
  obs (fun s => (sent s, key_queue s, msg_queue s, forallb (fun r => forallb (fun c => negb (down s r c)) (seq 0 8)) (seq 0 16)))
    (run (hold 12 [(1, 1)] ++ hold 10 [])) = Some ([112%N], [], [], true).
Proof. vm_compute. reflexivity. Qed.

(** ** C52 and the system-level part of C21 *)
Definition selected (a : akb) : N := ((if a_dn a 8 0 then 1 else 0) + (if a_dn a 8 1 then 2 else 0))%N.
Definition dips_off (rd : nat -> N) : Prop := reading rd 8 2 = false /\ reading rd 8 3 = false.

Definition sel_codes (k : N) (m r c : nat) (code : N) : bool :=
  match decode code with
  | AMapsel n => (r =? 8) && (c =? N.to_nat n)
  | _ => negb ((r =? 8) && (c <? 4))
  end.
Lemma sel_codes_ok : all_codes sel_codes = true.
Proof. vm_compute. reflexivity. Qed.

Definition SelInv (a : akb) : Prop :=
  last_low a /\ a_dn a 8 2 = false /\ a_dn a 8 3 = false /\ a_cur a = selected a.

Lemma selected_lt : forall a, (selected a < 4)%N.
Proof. intros. unfold selected. destruct (a_dn a 8 0), (a_dn a 8 1); lia. Qed.

Lemma sel_from : forall rds x, SelInv x -> Forall dips_off rds -> exists a, aticks rds x = Some a /\ SelInv a.
Proof.
  apply atotal_from.
  - intros a (_&_&_&E). rewrite E. apply selected_lt.
  - intros a (A&B&C&D). unfold SelInv, last_low, selected in *.
    destruct (asend_dn a) as [-> _]. rewrite send_last, send_cur. auto.
  - intros x a H. exact H.
  - intros rd r c a _ (A&B&C&D) Hr Hc Hk _ _. unfold SelInv, selected in *.
    destruct (aheld_dn (code_now a r c) a) as [-> _]. rewrite held_cur by auto.
    split; auto. apply held_last_low; auto.
  - intros rd r c a [P2 P3] (A&B&C&D) Hr Hc Hk HR HD.
    pose proof (code_now_check _ sel_codes_ok a r c Hk Hr Hc) as SC. unfold sel_codes in SC.
    unfold SelInv, selected in *.
    destruct (apress_dn (code_now a r c) (accept r c true a)) as [-> _].
    split; [apply press_last_low; exact A|].
    assert (N2 : ~ (r = 8 /\ c = 2)) by (intros [-> ->]; congruence).
    assert (N3 : ~ (r = 8 /\ c = 3)) by (intros [-> ->]; congruence).
    cbn [a_dn accept put_dn]. unfold set2.
    replace ((8 =? r) && (2 =? c)) with false by lia. replace ((8 =? r) && (3 =? c)) with false by lia.
    split; auto. split; auto.
    destruct (decode (code_now a r c)) eqn:DC;
      try (rewrite press_cur by (intros; congruence); cbn [a_cur accept put_dn put_ct];
           replace ((8 =? r) && (0 =? c)) with false by lia; replace ((8 =? r) && (1 =? c)) with false by lia; auto; fail).
    unfold apress. destruct (N.ltb_spec 0xA0 (code_now a r c)) as [HL|HL];
      [|exfalso; apply (low_not_sel _ HL n); auto].
    unfold aaction_on. rewrite DC. cbn [a_cur accept put_dn put_ct].
    assert (r = 8 /\ c = N.to_nat n) as [-> ->] by lia.
    assert (NN : n = 0%N \/ n = 1%N) by (pose proof (decode_mapsel _ _ DC); lia).
    assert (CC : a_cur a = 0%N \/ a_cur a = 1%N \/ a_cur a = 2%N \/ a_cur a = 3%N) by lia.
    rewrite select_cur by (destruct NN as [->| ->]; destruct CC as [->|[->|[->| ->]]]; cbn; lia).
    rewrite D. destruct NN as [->| ->]; try change (N.to_nat 0) with 0 in *; try change (N.to_nat 1) with 1 in *; cbn [Nat.eqb andb]; rewrite HD;
      [destruct (a_dn a 8 1)|destruct (a_dn a 8 0)]; reflexivity.
  - intros rd r c a [P2 P3] (A&B&C&D) Hr Hc Hk HR HD.
    pose proof (code_now_check _ sel_codes_ok a r c Hk Hr Hc) as SC. unfold sel_codes in SC.
    unfold SelInv, selected in *.
    destruct (arelease_dn (code_now a r c) (accept r c false a)) as [-> _].
    split; [apply release_last_low; exact A|].
    assert (N2 : ~ (r = 8 /\ c = 2)) by (intros [-> ->]; congruence).
    assert (N3 : ~ (r = 8 /\ c = 3)) by (intros [-> ->]; congruence).
    cbn [a_dn accept put_dn]. unfold set2.
    replace ((8 =? r) && (2 =? c)) with false by lia. replace ((8 =? r) && (3 =? c)) with false by lia.
    split; auto. split; auto.
    destruct (decode (code_now a r c)) eqn:DC;
      try (rewrite release_cur by (intros; congruence); cbn [a_cur accept put_dn put_ct];
           replace ((8 =? r) && (0 =? c)) with false by lia; replace ((8 =? r) && (1 =? c)) with false by lia; auto; fail).
    unfold arelease. destruct (N.ltb_spec 0xA0 (code_now a r c)) as [HL|HL];
      [|exfalso; apply (low_not_sel _ HL n); auto].
    unfold aaction_off. rewrite DC. cbn [a_cur accept put_dn put_ct].
    assert (r = 8 /\ c = N.to_nat n) as [-> ->] by lia.
    assert (NN : n = 0%N \/ n = 1%N) by (pose proof (decode_mapsel _ _ DC); lia).
    assert (CC : a_cur a = 0%N \/ a_cur a = 1%N \/ a_cur a = 2%N \/ a_cur a = 3%N) by lia.
    rewrite select_cur by (destruct NN as [->| ->]; destruct CC as [->|[->|[->| ->]]]; cbn; lia).
    rewrite D. destruct NN as [->| ->]; try change (N.to_nat 0) with 0 in *; try change (N.to_nat 1) with 1 in *; cbn [Nat.eqb andb]; rewrite HD;
      [destruct (a_dn a 8 1)|destruct (a_dn a 8 0)]; reflexivity.
Qed.

Lemma sel_total : forall rds, Forall dips_off rds -> exists a, arun rds = Some a /\ SelInv a.
Proof. intros rds H. apply sel_from; auto. repeat split; cbn; auto. unfold last_low. cbn. lia. Qed.

(** As long as keymap-select switches 2 and 3 are never read closed, the firmware
    runs for ever without undefined behaviour of any kind. *)
Theorem C52_no_undefined_behaviour : forall rds, Forall dips_off rds -> exists s, run rds = Ok s.
Proof.
  intros rds H. destruct (sel_total rds H) as [a [E _]]. pose proof (run_sim rds) as X. rewrite E in X.
  cbn [sim] in X. destruct X as [s [X _]]. eauto.
Qed.
Print Assumptions C52_no_undefined_behaviour.

(** Without that restriction the only possible failure is the keymap lookup of
    C19. *)
Theorem C52_only_failure : forall rds u, run rds = Bad u -> u = UKeymapsOob.
Proof. intros rds u H. apply run_bad in H. tauto. Qed.
Print Assumptions C52_only_failure.

(** Random-looking activity on all rows with the two switches off. *)
Example C52_example :
  Forall dips_off (repeat (fun r => if r =? 8 then 0xF3%N else 0xFF%N) 40 ++ hold 3 [(0, 1); (8, 0)]) /\
  obs k_cur (run (repeat (fun r => if r =? 8 then 0xF3%N else 0xFF%N) 40 ++ hold 3 [(0, 1); (8, 0)])) = Some 3%N.
Proof.
  split; [|vm_compute; reflexivity].
  apply Forall_app. split; apply Forall_forall; intros x Hx; apply repeat_spec in Hx; subst x; split; reflexivity.
Qed.

(** With the same restriction, the keymap is the one shown by the accepted state
    of switches 0 and 1, whatever movements and bounces happened. *)
Theorem C21_running_keymap_follows_switches : forall rds s, Forall dips_off rds -> run rds = Ok s ->
  k_cur s = ((if down s 8 0 then 1 else 0) + (if down s 8 1 then 2 else 0))%N.
Proof.
  intros rds s H E. destruct (sel_total rds H) as [a [A (_&_&_&I)]]. destruct (reach _ _ E) as [a' [A' RL]].
  assert (a' = a) by congruence. subst a'.
  rewrite (rl_cur _ _ RL), I, !(down_ok _ _ _ _ RL) by lia. reflexivity.
Qed.
Print Assumptions C21_running_keymap_follows_switches.
Example C21_running_example :
  obs (fun s => (k_cur s, down s 8 0, down s 8 1)) (run (hold 10 [(8, 0); (8, 1)] ++ hold 10 [(8, 1)])) = Some (2%N, false, true).
Proof. vm_compute. reflexivity. Qed.
