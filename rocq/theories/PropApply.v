(** asdf_apply_all_actions (asdf.c 605-626): C88, C89.  The firmware never calls
    it; its comment says it makes sure that DIP switches and jumpers are
    honoured. *)
From Coq Require Import List NArith ZArith Arith Bool Lia.
From Coq Require Import ZifyBool ZifyNat ZifyN.
From Verif Require Import Base Lib Buffer BufferSpec BufferProofs Repeat Devices DevSpec DevProofs
     Modifiers Hook KeymapData Asdf KeySpec KeyRef Obs Frames PropModState PropRepeatMode PropDebounce PropLeds PropSwitch.
Import ListNotations.
Local Open Scope outcome_scope.

(** ** What the keys closed in [rd] ask for *)
Definition keyboard_of (rd : nat -> N) : N := ((if reading rd 8 0 then 1 else 0) + (if reading rd 8 1 then 2 else 0))%N.

(** ** Proof: the function on the abstract machine *)
Definition apply_key (rd : nat -> N) (r c : nat) (a : akb) : akb :=
  if reading rd r c then aaction_on (code_now a r c) a else aaction_off (code_now a r c) a.
Definition take_row (rd : nat -> N) (r : nat) (a : akb) : akb :=
  put_dn (fun r' c' => if r' =? r then reading rd r c' else a_dn a r' c') a.
Definition apply_keys (rd : nat -> N) (r : nat) (cs : list nat) (a : akb) : akb :=
  fold_left (fun x c => apply_key rd r c x) cs a.
Definition apply_row (rd : nat -> N) (r : nat) (a : akb) : akb := apply_keys rd r (seq 0 8) (take_row rd r a).

Lemma apply_cur : forall rd r c a, dips_off rd -> r < 9 -> c < 8 -> (a_cur a < 4)%N ->
  (a_cur (apply_key rd r c a) < 4)%N /\ (r < 8 -> a_cur (apply_key rd r c a) = a_cur a).
Proof.
  intros rd r c a [D2 D3] Hr Hc Hk. pose proof (code_now_check _ sel_codes_ok a r c Hk Hr Hc) as SC. unfold sel_codes in SC.
  unfold apply_key.
  assert (X : (forall n, decode (code_now a r c) <> AMapsel n) \/ exists n, decode (code_now a r c) = AMapsel n)
    by (destruct (decode (code_now a r c)); eauto; left; discriminate).
  destruct X as [X|[n X]].
  - destruct (reading rd r c); rewrite ?on_cur, ?off_cur by auto; auto.
  - rewrite X in SC. assert (r = 8 /\ N.of_nat c = n) as [-> EN] by lia. split; [|lia].
    assert (B : n = 0%N \/ n = 1%N \/ n = 2%N \/ n = 3%N) by (apply decode_mapsel in X; lia).
    assert (KB : a_cur a = 0%N \/ a_cur a = 1%N \/ a_cur a = 2%N \/ a_cur a = 3%N) by lia.
    assert (L : reading rd 8 c = false \/ (n < 2)%N).
    { destruct B as [B|[B|[B|B]]]; [right; lia|right; lia|left|left].
      - replace c with 2 by lia. exact D2.
      - replace c with 3 by lia. exact D3. }
    clear EN.
    unfold aaction_on, aaction_off. rewrite X.
    destruct (reading rd 8 c).
    + destruct L as [L|L]; [discriminate L|]. rewrite select_cur;
        destruct B as [B|[B|[B|B]]]; try lia; subst n; destruct KB as [K|[K|[K|K]]]; rewrite K; reflexivity.
    + rewrite select_cur; destruct B as [B|[B|[B|B]]]; subst n; destruct KB as [K|[K|[K|K]]]; rewrite K; reflexivity.
Qed.

Lemma apply_key_sim : forall rd r c a s, Rel a s -> (a_cur a < 4)%N -> r < 9 -> c < 8 ->
  exists s', (code <- lookup_keycode r c s ;;
    if reading rd r c then activate_action code s else deactivate_action code s) = Ok s' /\ Rel (apply_key rd r c a) s'.
Proof.
  intros rd r c a s H Hk Hr Hc. pose proof (lookup_sim r c a s H Hc ltac:(rewrite rows_9; auto)) as L.
  unfold acode in L. replace (a_cur a <? 4)%N with true in L by lia. cbn [sim] in L. destruct L as [x [E <-]]. rewrite E. cbn [bind].
  unfold apply_key. fold (code_now a r c). destruct (reading rd r c); [apply action_on_sim|apply action_off_sim]; auto.
Qed.

Lemma apply_cols_sim : forall n col rd r a s fuel, dips_off rd -> Rel a s -> (a_cur a < 4)%N -> r < 9 -> n + col = 8 -> n < fuel ->
  exists s', apply_cols fuel r col (N.shiftr (u8 (rd r)) (N.of_nat col)) s = Ok s' /\
    Rel (apply_keys rd r (seq col n) a) s' /\ (a_cur (apply_keys rd r (seq col n) a) < 4)%N.
Proof.
  induction n as [|n IH]; intros col rd r a s fuel D H Hk Hr HN HF; (destruct fuel; [lia|]); cbn [apply_cols];
    rewrite (num_cols_ok _ _ H); cbn [bind].
  - replace (col <? 8) with false by lia. cbn. eauto.
  - replace (col <? 8) with true by lia. rewrite div2_shiftr, odd_shiftr, u8_bit by lia. fold (reading rd r col).
    destruct (apply_key_sim rd r col a s H Hk Hr ltac:(lia)) as (s1&E1&R1).
    destruct (lookup_keycode r col s) as [code|u]; [|discriminate E1]. cbn [bind] in *. rewrite E1. cbn [bind].
    destruct (apply_cur rd r col a D Hr ltac:(lia) Hk) as [C1 _].
    apply (IH (S col) rd r _ s1 fuel); auto; lia.
Qed.

Lemma take_row_sim : forall rd r a s, Rel a s -> r < 16 -> Rel (take_row rd r a) (set_stable (upd (k_stable s) r (u8 (rd r))) s).
Proof.
  intros rd r a s H Hr. rel H. constructor; auto; cbn [k_stable set_stable take_row a_dn put_dn].
  - rewrite upd_length; auto.
  - intros r' b E. rewrite nth_error_upd in E. destruct (Nat.eqb_spec r r') as [e|n]; cbn [andb] in E.
    + subst r'. rewrite (proj2 (Nat.ltb_lt _ _)) in E by lia. inv E. split; [unfold u8; apply N.mod_lt; discriminate|].
      intros c Hc. rewrite Nat.eqb_refl. apply u8_bit; auto.
    + destruct (Q2 _ _ E) as [B1 B2]. split; auto. intros c Hc. replace (r' =? r) with false by lia. auto.
Qed.

Definition apply_from (rd : nat -> N) (row n : nat) (a : akb) : akb := fold_left (fun x r => apply_row rd r x) (seq row n) a.
Lemma apply_rows_sim : forall n row rd a s fuel, dips_off rd -> Rel a s -> (a_cur a < 4)%N -> n + row = 9 -> n < fuel ->
  exists s', apply_rows fuel rd row s = Ok s' /\ Rel (apply_from rd row n a) s' /\ (a_cur (apply_from rd row n a) < 4)%N.
Proof.
  induction n as [|n IH]; intros row rd a s fuel D H Hk HN HF; (destruct fuel; [lia|]); cbn [apply_rows];
    rewrite (num_rows_ok _ _ H), rows_9 by auto; cbn [bind].
  - replace (row <? 9) with false by lia. cbn. eauto.
  - replace (row <? 9) with true by lia. rewrite lset_ok by (rewrite (rl_stlen _ _ H); lia). cbn [bind].
    pose proof (take_row_sim rd row a s H ltac:(lia)) as R0.
    destruct (apply_cols_sim 8 0 rd row _ _ 256 D R0 Hk ltac:(lia) eq_refl ltac:(apply Nat.ltb_lt; reflexivity)) as (s1&E1&R1&C1).
    change (N.of_nat 0) with 0%N in E1. rewrite N.shiftr_0_r in E1. rewrite E1. cbn [bind].
    apply (IH (S row) rd _ s1 fuel); auto; lia.
Qed.

(** Frames. *)
Lemma keys_frame : forall (J : akb -> Prop) rd r cs a, dips_off rd -> r < 9 -> Forall (fun c => c < 8) cs ->
  (forall c x, In c cs -> (a_cur x < 4)%N -> J x -> J (apply_key rd r c x)) -> (a_cur a < 4)%N -> J a ->
  J (apply_keys rd r cs a) /\ (a_cur (apply_keys rd r cs a) < 4)%N.
Proof.
  intros J rd r cs. induction cs as [|c cs IH]; intros a D Hr HF HJ Hk Ha; [cbn; auto|]. inv HF.
  cbn [apply_keys fold_left]. apply IH; auto.
  - intros c' x I. apply HJ. right. exact I.
  - apply apply_cur; auto.
  - apply HJ; auto. left. reflexivity.
Qed.
Lemma rows_frame : forall (J : akb -> Prop) rd row n a, dips_off rd -> row + n <= 9 ->
  (forall r c x, row <= r < row + n -> c < 8 -> (a_cur x < 4)%N -> J x -> J (apply_key rd r c x)) ->
  (forall r x, J x -> J (take_row rd r x)) -> (a_cur a < 4)%N -> J a ->
  J (apply_from rd row n a) /\ (a_cur (apply_from rd row n a) < 4)%N.
Proof.
  intros J rd row n. revert row. induction n as [|n IH]; intros row a D HN HJ HT Hk Ha; [cbn; auto|].
  cbn [apply_from seq fold_left]. fold (apply_from rd (S row) n (apply_row rd row a)).
  destruct (keys_frame J rd row (seq 0 8) (take_row rd row a) D ltac:(lia)) as [X1 X2]; auto.
  - apply Forall_forall. intros c Hc. apply in_seq in Hc. lia.
  - intros c x Hc. apply HJ; [lia|]. apply in_seq in Hc. lia.
  - apply IH; auto; [lia|]. intros r c x Hr. apply HJ. lia.
Qed.

Lemma apply_key_dn : forall rd r c a, a_dn (apply_key rd r c a) = a_dn a.
Proof. intros. unfold apply_key. destruct (reading rd r c); [apply aon_dn|apply aoff_dn]. Qed.
Lemma apply_dn : forall rd n row a r c, dips_off rd -> row + n <= 9 -> (a_cur a < 4)%N ->
  a_dn (apply_from rd row n a) r c = if (row <=? r) && (r <? row + n) then reading rd r c else a_dn a r c.
Proof.
  intros rd. induction n as [|n IH]; intros row a r c D HN Hk.
  - replace ((row <=? r) && (r <? row + 0)) with false by lia. reflexivity.
  - cbn [apply_from seq fold_left]. fold (apply_from rd (S row) n (apply_row rd row a)).
    destruct (keys_frame (fun x => a_dn x = a_dn (take_row rd row a)) rd row (seq 0 8) (take_row rd row a) D ltac:(lia)) as [X1 X2]; auto.
    { apply Forall_forall. intros k Hc. apply in_seq in Hc. lia. }
    { intros k x _ _ E. rewrite apply_key_dn. exact E. }
    unfold apply_row. rewrite IH; auto; [|lia]. rewrite X1. cbn [take_row a_dn put_dn].
    destruct (Nat.eqb_spec r row) as [->|NE].
    + replace ((S row <=? row) && (row <? S row + n)) with false by lia. replace ((row <=? row) && (row <? row + S n)) with true by lia. reflexivity.
    + replace ((row <=? r) && (r <? row + S n)) with ((S row <=? r) && (r <? S row + n)) by lia. reflexivity.
Qed.

(** Row 8. *)
Definition row8 (k : N) (m r c : nat) (code : N) : bool :=
  if r =? 8 then
    match c with
    | 0 => (code =? 0xA8)%N | 1 => (code =? 0xA9)%N | 2 => (code =? 0xAA)%N | 3 => (code =? 0xAB)%N
    | 4 => (code =? 0)%N | 5 => (code =? 0xC1)%N | 6 => (code =? 0xAD)%N | _ => (code =? 0xAC)%N
    end
  else match decode code with AMapsel _ | AStrobe | AAutorepeat => false | _ => true end.
Lemma row8_ok : all_codes row8 = true.
Proof. vm_compute. reflexivity. Qed.
Definition dip (n : N) (b : bool) (a : akb) : akb := aselect (if b then N.setbit (a_cur a) n else N.clearbit (a_cur a) n) a.

Lemma dip_cur : forall a n b, (a_cur a < 4)%N -> (n < 2)%N -> a_cur (dip n b a) = (if b then N.setbit (a_cur a) n else N.clearbit (a_cur a) n) /\ (a_cur (dip n b a) < 4)%N.
Proof.
  intros a n b Hk Hn. unfold dip.
  assert (KB : a_cur a = 0%N \/ a_cur a = 1%N \/ a_cur a = 2%N \/ a_cur a = 3%N) by lia.
  assert (B : n = 0%N \/ n = 1%N) by lia.
  assert (L : ((if b then N.setbit (a_cur a) n else N.clearbit (a_cur a) n) < 4)%N)
    by (destruct B as [-> | ->]; destruct KB as [K|[K|[K|K]]]; rewrite K; destruct b; reflexivity).
  rewrite select_cur by lia. auto.
Qed.
Lemma dip_open : forall a n, (a_cur a < 4)%N -> n = 2%N \/ n = 3%N -> dip n false a = a.
Proof.
  intros a n Hk Hn. unfold dip, aselect.
  assert (KB : a_cur a = 0%N \/ a_cur a = 1%N \/ a_cur a = 2%N \/ a_cur a = 3%N) by lia.
  replace (N.clearbit (a_cur a) n =? a_cur a)%N with true; auto.
  destruct Hn as [-> | ->]; destruct KB as [K|[K|[K|K]]]; rewrite K; reflexivity.
Qed.
Lemma apply_row8 : forall rd a, dips_off rd -> (a_cur a < 4)%N ->
  apply_keys rd 8 (seq 0 8) a =
  let x := dip 1 (reading rd 8 1) (dip 0 (reading rd 8 0) a) in
  let y := note (if reading rd 8 6 then EvStrobePos else EvStrobeNeg) x in
  put_rep ((if reading rd 8 7 then repeat_auto_on else repeat_auto_off) (a_rep y)) y.
Proof.
  intros rd a [D2 D3] Hk.
  assert (C : forall x c, (a_cur x < 4)%N -> c < 8 -> row8 (a_cur x) (map_now (a_mod x)) 8 c (code_now x 8 c) = true)
    by (intros x c Hx Hc; apply (code_now_check _ row8_ok); auto).
  assert (K0 : apply_key rd 8 0 a = dip 0 (reading rd 8 0) a).
  { unfold apply_key. pose proof (C a 0 Hk ltac:(lia)) as X. cbn [row8 Nat.eqb] in X. apply N.eqb_eq in X. rewrite X.
    unfold dip. destruct (reading rd 8 0); reflexivity. }
  destruct (dip_cur a 0 (reading rd 8 0) Hk ltac:(lia)) as [_ H0]. set (a0 := dip 0 (reading rd 8 0) a) in *.
  assert (K1 : apply_key rd 8 1 a0 = dip 1 (reading rd 8 1) a0).
  { unfold apply_key. pose proof (C a0 1 H0 ltac:(lia)) as X. cbn [row8 Nat.eqb] in X. apply N.eqb_eq in X. rewrite X.
    unfold dip. destruct (reading rd 8 1); reflexivity. }
  destruct (dip_cur a0 1 (reading rd 8 1) H0 ltac:(lia)) as [_ H1]. set (a1 := dip 1 (reading rd 8 1) a0) in *.
  assert (K2 : apply_key rd 8 2 a1 = a1).
  { unfold apply_key. pose proof (C a1 2 H1 ltac:(lia)) as X. cbn [row8 Nat.eqb] in X. apply N.eqb_eq in X. rewrite X, D2.
    apply (dip_open a1 2); auto. }
  assert (K3 : apply_key rd 8 3 a1 = a1).
  { unfold apply_key. pose proof (C a1 3 H1 ltac:(lia)) as X. cbn [row8 Nat.eqb] in X. apply N.eqb_eq in X. rewrite X, D3.
    apply (dip_open a1 3); auto. }
  assert (K4 : apply_key rd 8 4 a1 = a1).
  { unfold apply_key. pose proof (C a1 4 H1 ltac:(lia)) as X. cbn [row8 Nat.eqb] in X. apply N.eqb_eq in X. rewrite X.
    destruct (reading rd 8 4); reflexivity. }
  assert (K5 : apply_key rd 8 5 a1 = a1).
  { unfold apply_key. pose proof (C a1 5 H1 ltac:(lia)) as X. cbn [row8 Nat.eqb] in X. apply N.eqb_eq in X. rewrite X.
    destruct (reading rd 8 5); [|reflexivity]. unfold aaction_on. change (decode 193) with (AFn 11). cbv iota. rewrite message_11. reflexivity. }
  assert (K6 : apply_key rd 8 6 a1 = note (if reading rd 8 6 then EvStrobePos else EvStrobeNeg) a1).
  { unfold apply_key. pose proof (C a1 6 H1 ltac:(lia)) as X. cbn [row8 Nat.eqb] in X. apply N.eqb_eq in X. rewrite X.
    destruct (reading rd 8 6); reflexivity. }
  cbn zeta. set (a6 := note _ a1) in *.
  assert (K7 : apply_key rd 8 7 a6 = put_rep ((if reading rd 8 7 then repeat_auto_on else repeat_auto_off) (a_rep a6)) a6).
  { unfold apply_key. pose proof (C a6 7 H1 ltac:(lia)) as X. cbn [row8 Nat.eqb] in X. apply N.eqb_eq in X. rewrite X.
    destruct (reading rd 8 7); reflexivity. }
  cbn [seq apply_keys fold_left]. rewrite K0, K1, K2, K3, K4, K5, K6, K7. reflexivity.
Qed.

Lemma apply_whole : forall rd a s, dips_off rd -> Rel a s -> (a_cur a < 4)%N ->
  exists s' a', apply_all_actions rd s = Ok s' /\ Rel a' s' /\ (a_cur a' < 4)%N /\ a_cur a' = keyboard_of rd /\
    (forall r c, r < 9 -> a_dn a' r c = reading rd r c) /\ pol (a_log a') = Some (reading rd 8 6) /\
    r_base (a_rep a') = auto_mode (reading rd 8 7) /\ (r_state (a_rep a') = ROn \/ r_state (a_rep a') = r_base (a_rep a')) /\
    m_ctrl (a_mod a') = (if reading rd 0 6 then 1 else 0)%N /\
    a_last a' = a_last a /\ a_qk a' = a_qk a /\ (exists l, a_log a' = l ++ a_log a /\ Forall silent l) /\ a_ct a' = a_ct a.
Proof.
  intros rd a s D H Hk. unfold apply_all_actions.
  assert (HG : hook_get HOOK_ROW_SCANNER (k_hook s) = Ok HReadRow) by (rewrite (rl_hook _ _ H); reflexivity).
  rewrite HG. cbn [bind].
  destruct (apply_rows_sim 9 0 rd a s 256 D H Hk eq_refl ltac:(apply Nat.ltb_lt; reflexivity)) as (s'&E&R'&C').
  exists s', (apply_from rd 0 9 a). split; [exact E|]. split; [exact R'|]. split; [exact C'|]. clear E R' C' HG.
  assert (DN : forall r c, r < 9 -> a_dn (apply_from rd 0 9 a) r c = reading rd r c).
  { intros r c Hr. rewrite apply_dn by (auto; lia). replace ((0 <=? r) && (r <? 0 + 9)) with true by lia. reflexivity. }
  set (b := apply_from rd 0 8 a).
  assert (EB : apply_from rd 0 9 a = apply_keys rd 8 (seq 0 8) (take_row rd 8 b)) by reflexivity.
  (* rows 0-7: selection, pending codes and log *)
  assert (F1 : (a_last b = a_last a /\ a_qk b = a_qk a /\ (exists l, a_log b = l ++ a_log a /\ Forall silent l) /\ a_ct b = a_ct a) /\ (a_cur b < 4)%N).
  { apply (rows_frame (fun x => a_last x = a_last a /\ a_qk x = a_qk a /\ (exists l, a_log x = l ++ a_log a /\ Forall silent l) /\ a_ct x = a_ct a)); auto.
    - intros r c x _ _ _ (E1&E2&(l&E3&E4)&E5). unfold apply_key. destruct (reading rd r c).
      + rewrite on_last, on_qk. destruct (aon_dn (code_now x r c) x) as [_ ->]. split; auto. split; auto. split; auto.
        destruct (on_log (code_now x r c) x) as (l'&L1&L2). exists (l' ++ l). rewrite L1, E3, app_assoc. split; auto. apply Forall_app; auto.
      + rewrite off_last, off_qk. destruct (aoff_dn (code_now x r c) x) as [_ ->]. split; auto. split; auto. split; auto.
        destruct (off_log (code_now x r c) x) as (l'&L1&L2). exists (l' ++ l). rewrite L1, E3, app_assoc. split; auto. apply Forall_app; auto.
    - split; auto. split; auto. split; auto. exists []. split; auto. }
  destruct F1 as [(L1&Q1&(lg&G1&G2)&CT1) KB].
  (* CTRL *)
  assert (F2 : m_ctrl (a_mod b) = (if reading rd 0 6 then 1 else 0)%N).
  { assert (CC : forall r c x, r < 9 -> c < 8 -> (a_cur x < 4)%N -> (r <> 0 \/ c <> 6) -> m_ctrl (a_mod (apply_key rd r c x)) = m_ctrl (a_mod x)).
    { intros r c x Hr Hc Hx NE. pose proof (code_now_check _ ctrl_codes_ok x r c Hx Hr Hc) as X. unfold ctrl_codes in X.
      assert (ND : decode (code_now x r c) <> ACtrl) by (intros Y; rewrite Y in X; lia).
      unfold apply_key. destruct (reading rd r c); [apply on_ctrl|apply off_ctrl]; auto. }
    set (V := (if reading rd 0 6 then 1 else 0)%N).
    assert (T0 : forall c x, (a_cur x < 4)%N -> c < 8 -> m_ctrl (a_mod (apply_key rd 0 6 x)) = V).
    { intros _ x Hx _. pose proof (code_now_check _ ctrl_codes_ok x 0 6 Hx ltac:(lia) ltac:(lia)) as X. unfold ctrl_codes in X.
      assert (DC : decode (code_now x 0 6) = ACtrl) by (destruct (decode (code_now x 0 6)); try discriminate X; reflexivity).
      unfold V, apply_key, aaction_on, aaction_off. rewrite DC. destruct (reading rd 0 6); reflexivity. }
    assert (X0 : m_ctrl (a_mod (apply_row rd 0 a)) = V /\ (a_cur (apply_row rd 0 a) < 4)%N).
    { unfold apply_row. change (seq 0 8) with (seq 0 6 ++ [6; 7]). unfold apply_keys. rewrite fold_left_app.
      destruct (keys_frame (fun _ => True) rd 0 (seq 0 6) (take_row rd 0 a) D ltac:(lia)) as [_ Y]; auto.
      { apply Forall_forall. intros c Hc. apply in_seq in Hc. lia. }
      fold (apply_keys rd 0 (seq 0 6) (take_row rd 0 a)). set (y := apply_keys rd 0 (seq 0 6) (take_row rd 0 a)) in *.
      cbn [fold_left]. destruct (apply_cur rd 0 6 y D ltac:(lia) ltac:(lia) Y) as [Y1 _].
      destruct (apply_cur rd 0 7 _ D ltac:(lia) ltac:(lia) Y1) as [Y2 _]. split; auto. rewrite CC by (auto; lia). apply (T0 0); auto. lia. }
    assert (X1 : m_ctrl (a_mod (apply_from rd 1 7 (apply_row rd 0 a))) = V /\ (a_cur (apply_from rd 1 7 (apply_row rd 0 a)) < 4)%N).
    { apply (rows_frame (fun x => m_ctrl (a_mod x) = V)); auto; try apply X0. intros r c x Hr Hc Hx EX. rewrite CC by (auto; lia). exact EX. }
    apply X1. }
  (* REPEAT *)
  assert (KT : (a_cur (take_row rd 8 b) < 4)%N) by exact KB.
  rewrite EB, (apply_row8 rd _ D KT) in *. cbn zeta.
  set (x := dip 1 (reading rd 8 1) (dip 0 (reading rd 8 0) (take_row rd 8 b))) in *.
  destruct (dip_cur (take_row rd 8 b) 0 (reading rd 8 0) KT ltac:(lia)) as [CX0 CL0].
  destruct (dip_cur (dip 0 (reading rd 8 0) (take_row rd 8 b)) 1 (reading rd 8 1) CL0 ltac:(lia)) as [CX1 CL1]. fold x in CX1, CL1.
  assert (KX : a_cur x = keyboard_of rd).
  { rewrite CX1, CX0. cbn [a_cur take_row put_dn]. unfold keyboard_of. clear -KB.
    assert (K4 : a_cur b = 0%N \/ a_cur b = 1%N \/ a_cur b = 2%N \/ a_cur b = 3%N) by lia.
    destruct K4 as [K|[K|[K|K]]]; rewrite K; destruct (reading rd 8 0), (reading rd 8 1); reflexivity. }
  assert (FX : m_ctrl (a_mod x) = m_ctrl (a_mod b) /\ a_last x = a_last b /\ a_qk x = a_qk b /\ a_ct x = a_ct b /\
    exists l, a_log x = l ++ a_log b /\ Forall silent l).
  { unfold x, dip. rewrite !select_ctrl, !select_last, !select_qk.
    match goal with |- context [aselect ?i ?z] => destruct (aselect_dn i z) as [_ ->] end.
    match goal with |- context [a_ct (aselect ?i ?z)] => destruct (aselect_dn i z) as [_ ->] end.
    repeat (split; [reflexivity|]).
    match goal with |- exists l, a_log (aselect ?i ?z) = _ /\ _ => destruct (select_log i z) as (l1&E1&F1') end.
    match goal with H : a_log _ = l1 ++ a_log (aselect ?i ?z) |- _ => destruct (select_log i z) as (l2&E2&F2') end.
    exists (l1 ++ l2). rewrite E1, E2, app_assoc. split; [reflexivity|]. apply Forall_app; auto. }
  destruct FX as (FX1&FX2&FX3&FX4&(lx&FX5&FX6)).
  split; [exact KX|]. split; [exact DN|].
  split; [cbn [a_log put_rep note put_log pol fold_right]; destruct (reading rd 8 6); reflexivity|].
  split. { cbn [a_rep put_rep note put_log]. unfold repeat_auto_on, repeat_auto_off. destruct (reading rd 8 7), (r_state (a_rep x)); reflexivity. }
  split. { cbn [a_rep put_rep note put_log]. unfold repeat_auto_on, repeat_auto_off. destruct (reading rd 8 7), (r_state (a_rep x)); auto. }
  split; [cbn [a_mod put_rep note put_log]; congruence|]. split; [cbn [a_last put_rep note put_log]; congruence|].
  split; [cbn [a_qk put_rep note put_log]; congruence|].
  split; [|cbn [a_ct put_rep note put_log]; congruence].
  cbn [a_log put_rep note put_log]. exists ((if reading rd 8 6 then EvStrobePos else EvStrobeNeg) :: lx ++ lg).
  rewrite FX5, G1. split; [cbn [app]; rewrite app_assoc; reflexivity|].
  constructor; [destruct (reading rd 8 6); exact I|apply Forall_app; auto].
Qed.

(** ** C88 *)
(** In every state reached on a four-map keyboard, with mode switches 2 and 3
    open: afterwards keyboard, autorepeat mode, strobe polarity and CTRL are the
    ones shown by the switches and keys, the key states are the ones read, and
    nothing is typed. *)
Theorem C88_apply_all_actions : forall rds s rd, run rds = Ok s -> (k_cur s < 4)%N -> dips_off rd ->
  exists s', apply_all_actions rd s = Ok s' /\
    (forall r c, r < 9 -> c < 8 -> down s' r c = reading rd r c) /\
    k_cur s' = keyboard_of rd /\
    polarity s' = Some (reading rd 8 6) /\
    r_base (k_rep s') = auto_mode (reading rd 8 7) /\
    (in_repeat_mode s' = false -> r_state (k_rep s') = auto_mode (reading rd 8 7)) /\
    ctrl_on s' = reading rd 0 6 /\
    sent s' = sent s /\ key_queue s' = key_queue s /\ k_last s' = k_last s.
Proof.
  intros rds s rd H Hk D. destruct (reach _ _ H) as [a [A RL]]. rewrite (rl_cur _ _ RL) in Hk.
  destruct (apply_whole rd a s D RL Hk) as (s'&a'&E&R'&C'&KB&DN&PO&RB&RS&CT&LA&QK&(l&LG&SI)&_).
  exists s'. split; [exact E|]. split; [intros r c Hr Hc; rewrite (down_ok _ _ _ _ R') by lia; auto|].
  split; [rewrite (rl_cur _ _ R'); exact KB|]. split; [rewrite (polarity_ok _ _ R'); exact PO|].
  split; [rewrite (rl_rep _ _ R'); exact RB|].
  split. { unfold in_repeat_mode. rewrite (rl_rep _ _ R'). intros M. destruct RS as [RS|RS]; [rewrite RS in M; discriminate M|congruence]. }
  split. { unfold ctrl_on. rewrite (rl_mod _ _ R'), CT. destruct (reading rd 0 6); reflexivity. }
  split. { rewrite (sent_ok _ _ R'), (sent_ok _ _ RL), LG, rev_app_distr, sends_app.
    rewrite (silent_sends (rev l)) by (apply Forall_rev; exact SI). apply app_nil_r. }
  split; [rewrite (key_queue_ok _ _ R'), (key_queue_ok _ _ RL); exact QK|].
  rewrite (rl_last _ _ R'), (rl_last _ _ RL). exact LA.
Qed.
Print Assumptions C88_apply_all_actions.

(** CTRL and switches 0, 1, 6 closed, autorepeat switch open; the power-on state
    shows none of it. *)
Example C88_example :
  dips_off (matrix [(0, 6); (8, 0); (8, 1); (8, 6)]) /\
  obs (fun s => (k_cur s, polarity s, r_state (k_rep s), ctrl_on s, down s 8 1))
      (s <- run [] ;; apply_all_actions (matrix [(0, 6); (8, 0); (8, 1); (8, 6)]) s) = Some (3%N, Some true, ROff, true, true) /\
  obs (fun s => (k_cur s, polarity s, r_state (k_rep s), ctrl_on s, down s 8 1)) (run []) = Some (0%N, None, RAuto, false, false).
Proof. split; [split; reflexivity|]. vm_compute. auto. Qed.

(** ** C89 *)
(** The firmware with a call of asdf_apply_all_actions after asdf_init. *)
Definition start_with (rd : nat -> N) : outcome kb := s <- run [] ;; apply_all_actions rd s.
(** Mode switches 0 and 1 as in [rd0], 2 and 3 open. *)
Definition same_mode (rd0 rd : nat -> N) : Prop :=
  dips_off rd /\ reading rd 8 0 = reading rd0 8 0 /\ reading rd 8 1 = reading rd0 8 1.

Definition PolFix (b0 b1 : bool) (a : akb) : Prop :=
  SelInv a /\ a_dn a 8 0 = b0 /\ a_dn a 8 1 = b1 /\ pol (a_log a) = Some (a_dn a 8 6).
Lemma pol_send : forall x, pol (a_log (asend x)) = pol (a_log x).
Proof.
  intros x. unfold asend. destruct (a_qm x); [|reflexivity]. destruct (a_qk x); [reflexivity|].
  destruct (n <? 0xA0)%N; reflexivity.
Qed.
Lemma pol_fix : forall rd0 rds x a, PolFix (reading rd0 8 0) (reading rd0 8 1) x -> Forall (same_mode rd0) rds -> aticks rds x = Some a ->
  PolFix (reading rd0 8 0) (reading rd0 8 1) a.
Proof.
  intros rd0 rds x a I0 HF E.
  assert (S0 : SelInv a).
  { destruct I0 as [I0 _]. destruct (sel_from rds x I0) as (a2&E2&X); [|congruence]. eapply Forall_impl; [|exact HF]. intros rd H. apply H. }
  split; [exact S0|].
  set (J := fun y => last_low y /\ a_dn y 8 0 = reading rd0 8 0 /\ a_dn y 8 1 = reading rd0 8 1 /\ a_dn y 8 2 = false /\ a_dn y 8 3 = false /\
              pol (a_log y) = Some (a_dn y 8 6)).
  assert (X : J a); [|unfold J in X; tauto].
  refine (ainv_from (same_mode rd0) J _ _ _ _ _ rds x a _ _ HF E); clear E a S0.
  - intros y (A&B). unfold J, last_low in *. destruct (asend_dn y) as [-> _]. rewrite send_last, pol_send. auto.
  - intros z y H. exact H.
  - intros rd r c y _ (A&B) Hr Hc Hk _ _. unfold J. destruct (aheld_dn (code_now y r c) y) as [-> _].
    rewrite held_log by auto. split; [apply held_last_low; auto|exact B].
  - intros rd r c y ((P2&P3)&P0&P1) (A&B0&B1&B2&B3&B6) Hr Hc Hk RD HD.
    pose proof (code_now_check _ out_codes_ok y r c Hk Hr Hc) as O.
    pose proof (code_now_check _ strobe_codes_ok y r c Hk Hr Hc) as SC. unfold strobe_codes in SC.
    pose proof (code_now_check _ sel_codes_ok y r c Hk Hr Hc) as SE. unfold sel_codes in SE.
    assert (N0 : ~ (r = 8 /\ c < 4)).
    { intros [-> L]. assert (Y : c = 0 \/ c = 1 \/ c = 2 \/ c = 3) by (clear -L; lia). destruct Y as [Y|[Y|[Y|Y]]]; subst c; congruence. }
    assert (NS : forall n, decode (code_now y r c) <> AMapsel n).
    { intros n DC. rewrite DC in SE. pose proof (decode_mapsel _ _ DC). apply N0. clear -SE H. lia. }
    unfold J. destruct (apress_dn (code_now y r c) (accept r c true y)) as [-> _].
    split; [apply press_last_low; exact A|]. cbn [a_dn accept put_dn put_ct].
    split; [rewrite set2_other by (clear -N0; lia); exact B0|]. split; [rewrite set2_other by (clear -N0; lia); exact B1|].
    split; [rewrite set2_other by (clear -N0; lia); exact B2|]. split; [rewrite set2_other by (clear -N0; lia); exact B3|].
    destruct (decode (code_now y r c)) eqn:DC;
      try (destruct (press_quiet _ _ _ _ _ (accept r c true y) O Hk) as [l [-> L]]; try (intros; congruence);
           rewrite pol_skip by (apply free_outev; auto); rewrite set2_other by (clear -SC; lia); exact B6).
    + rewrite (press_act _ _ _ DC) by discriminate. unfold aaction_on. rewrite DC. unfold atoggle_caps. cbn [a_log put_mod].
      match goal with |- context [aact ?f ?v ?z] => destruct (aact_log f v z) as [l [-> L]] end.
      rewrite pol_skip by exact L. rewrite set2_other by (clear -SC; lia). exact B6.
    + rewrite (press_act _ _ _ DC) by discriminate. unfold aaction_on. rewrite DC.
      assert (r = 8 /\ c = 6) as [-> ->] by (clear -SC; lia). rewrite set2_same. reflexivity.
  - intros rd r c y ((P2&P3)&P0&P1) (A&B0&B1&B2&B3&B6) Hr Hc Hk RD HD.
    pose proof (code_now_check _ strobe_codes_ok y r c Hk Hr Hc) as SC. unfold strobe_codes in SC.
    pose proof (code_now_check _ sel_codes_ok y r c Hk Hr Hc) as SE. unfold sel_codes in SE.
    assert (N0 : ~ (r = 8 /\ c < 4)).
    { intros [-> L]. assert (Y : c = 0 \/ c = 1 \/ c = 2 \/ c = 3) by (clear -L; lia). destruct Y as [Y|[Y|[Y|Y]]]; subst c; congruence. }
    assert (NS : forall n, decode (code_now y r c) <> AMapsel n).
    { intros n DC. rewrite DC in SE. pose proof (decode_mapsel _ _ DC). apply N0. clear -SE H. lia. }
    unfold J. destruct (arelease_dn (code_now y r c) (accept r c false y)) as [-> _].
    split; [apply release_last_low; exact A|]. cbn [a_dn accept put_dn put_ct].
    split; [rewrite set2_other by (clear -N0; lia); exact B0|]. split; [rewrite set2_other by (clear -N0; lia); exact B1|].
    split; [rewrite set2_other by (clear -N0; lia); exact B2|]. split; [rewrite set2_other by (clear -N0; lia); exact B3|].
    destruct (decode (code_now y r c)) eqn:DC;
      try (rewrite release_quiet by (auto; intros; congruence); rewrite set2_other by (clear -SC; lia); exact B6).
    + rewrite (release_act _ _ _ DC) by discriminate. unfold aaction_off. rewrite DC.
      assert (r = 8 /\ c = 6) as [-> ->] by (clear -SC; lia). rewrite set2_same. reflexivity.
  - destruct I0 as ((A&B&C&D)&I1&I2&I3). unfold J. auto 10.
  - destruct I0 as ((A&B&C&D)&_). rewrite D. pose proof (selected_lt x) as SL. clear -SL; lia.
Qed.

(** From the first scan on and for ever: keyboard and autorepeat follow their
    switches; the strobe polarity follows its switch while the mode switches are
    left alone. *)
Theorem C89_switches_honoured_from_start : forall rd rds, dips_off rd -> Forall dips_off rds ->
  exists s1 s, start_with rd = Ok s1 /\ ticks rds s1 = Ok s /\
    k_cur s = ((if down s 8 0 then 1 else 0) + (if down s 8 1 then 2 else 0))%N /\
    (in_repeat_mode s = false -> r_state (k_rep s) = auto_mode (down s 8 7)) /\
    (Forall (same_mode rd) rds -> polarity s = Some (down s 8 6)).
Proof.
  intros rd rds D HF. destruct (C52_no_undefined_behaviour []) as [s0 E0]; [constructor|].
  destruct (reach _ _ E0) as [a0 [A0 R0]]. assert (A0' : a0 = aboot) by (cbn in A0; congruence). subst a0.
  assert (K0 : (a_cur aboot < 4)%N) by reflexivity.
  destruct (apply_whole rd aboot s0 D R0 K0) as (s1&a1&E1&R1&C1&KB&DN&PO&RB&RS&CT&LA&QK&_&_).
  exists s1. assert (ST : start_with rd = Ok s1) by (unfold start_with; rewrite E0; exact E1).
  assert (SI : SelInv a1).
  { split; [unfold last_low; rewrite LA; exact (N.le_refl 0xA0)|]. rewrite !DN by lia. destruct D as [D2 D3]. split; [exact D2|]. split; [exact D3|].
    rewrite KB. unfold keyboard_of, selected. rewrite !DN by lia. reflexivity. }
  destruct (sel_from rds a1 SI HF) as (a&A&SA). pose proof (ticks_sim rds _ _ R1) as X. rewrite A in X. cbn [sim] in X. destruct X as (s&E&RL).
  exists s. split; [exact ST|]. split; [exact E|]. destruct SA as (_&_&_&SA).
  split. { rewrite (rl_cur _ _ RL), SA. unfold selected. rewrite !(down_ok _ _ _ _ RL) by lia. reflexivity. }
  split.
  - assert (I2 : SwInv (fun d b => b = auto_mode d) a).
    { refine (sw_inv (fun d b => b = auto_mode d) _ _ rds a1 a _ _ (True_all _) A); [reflexivity|reflexivity| |lia].
      split; [apply SI|]. split; [exact RS|]. rewrite DN by lia. exact RB. }
    destruct I2 as (_ & S2 & B2). unfold in_repeat_mode. rewrite (down_ok _ _ _ _ RL), (rl_rep _ _ RL) by lia. intros M.
    destruct S2 as [S2|S2]; [rewrite S2 in M; discriminate M|congruence].
  - intros HM. rewrite (polarity_ok _ _ RL), (down_ok _ _ _ _ RL) by lia.
    assert (PF : PolFix (reading rd 8 0) (reading rd 8 1) a); [|apply PF].
    apply (pol_fix rd rds a1 a); auto. split; [exact SI|]. rewrite !DN by lia. auto.
Qed.
Print Assumptions C89_switches_honoured_from_start.

(** Both open switches, which plain start-up ignores (C41, C58): no repeats of a
    held key, negative strobe. *)
Example C89_example :
  obs (fun s => (sent s, polarity s, down s 8 6)) (bind (start_with (matrix [])) (ticks (hold 800 [(1, 1)]))) = Some ([112%N], Some false, false) /\
  obs (fun s => (length (sent s), polarity s, down s 8 6)) (run (hold 800 [(1, 1)])) = Some (6, None, false).
Proof. vm_compute. auto. Qed.
