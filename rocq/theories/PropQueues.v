(** What the scanner queues and what the host receives: C28, C36-C38. *)
From Coq Require Import List NArith ZArith Arith Bool Lia.
From Coq Require Import ZifyBool ZifyNat ZifyN.
From Verif Require Import Base Lib Buffer BufferSpec BufferProofs Repeat Devices DevSpec DevProofs
     Modifiers Hook KeymapData Asdf KeySpec KeyRef Obs Frames PropModState.
Import ListNotations.
Local Open Scope outcome_scope.

(** ** The two halves of the loop body (main.c 61-80) *)
(** Sending. *)
Definition sender (s : kb) : outcome kb :=
  '(code, s1) <- next_code s ;; if (code <? INVALID)%N then output code s1 else Ok s1.
Lemma tick_halves : forall rd s, tick rd s = bind (sender s) (keyscan rd).
Proof. intros. unfold tick, sender. destruct (next_code s) as [[code s1]|]; reflexivity. Qed.

Lemma sender_ok : forall a s, Rel a s -> exists s1, sender s = Ok s1 /\ Rel (asend a) s1.
Proof. intros a s H. exact (send_sim a s H). Qed.

Lemma qk_bound : forall a s, Rel a s -> length (a_qk a) <= 16 /\ length (a_qm a) <= 128.
Proof.
  intros a s H. destruct (rl_buf _ _ H) as (_&_&_&_&_&_&B). cbn [bufsrep] in B.
  destruct (buffers (k_buf s)) as [|d [|d2 ds]]; try tauto. destruct B as [B1 [B2 _]].
  unfold bufrep in *. cbn [f_cap f_items] in *. lia.
Qed.

(** ** Events by source: a message character is announced by its delay *)
Fixpoint by_source (delayed : bool) (evs : list event) : list (bool * N) :=
  match evs with
  | [] => []
  | EvDelayMs _ :: t => by_source true t
  | EvSend c :: t => (delayed, c) :: by_source false t
  | _ :: t => by_source delayed t
  end.
Definition msgs_sent (s : kb) : list N := map snd (filter fst (by_source false (events s))).
Definition keys_sent (s : kb) : list N := map snd (filter (fun x => negb (fst x)) (by_source false (events s))).

(** Codes that entered queue [q] while scanning, over the ticks [rds] from [s]. *)
Fixpoint entered (q : kb -> list N) (rds : list (nat -> N)) (s : kb) : list N :=
  match rds with
  | [] => []
  | rd :: t =>
      match sender s with
      | Ok s1 => match keyscan rd s1 with
                 | Ok s2 => skipn (length (q s1)) (q s2) ++ entered q t s2
                 | Bad _ => []
                 end
      | Bad _ => []
      end
  end.

(** ** Growth of the queues during a scan *)
Lemma qput_firstn : forall cap c q, length q <= cap -> qput cap c q = firstn cap (q ++ [c]).
Proof.
  intros cap c q H. unfold qput. destruct (Nat.ltb_spec (length q) cap).
  - rewrite firstn_all2; auto. rewrite app_length. cbn. lia.
  - rewrite firstn_app, firstn_all2 by lia. replace (cap - length q) with 0 by lia. rewrite app_nil_r. auto.
Qed.
Lemma firstn_firstn_app : forall A n (a b : list A), firstn n (firstn n a ++ b) = firstn n (a ++ b).
Proof.
  intros A n a b. destruct (Nat.le_ge_cases (length a) n).
  - rewrite (firstn_all2 a) by auto. auto.
  - rewrite !firstn_app, firstn_firstn, Nat.min_id, firstn_length, Nat.min_l by auto.
    rewrite Nat.sub_diag. replace (n - length a) with 0 by lia. auto.
Qed.
Lemma qput_all_firstn : forall cap l q, length q <= cap -> qput_all cap l q = firstn cap (q ++ l).
Proof.
  induction l as [|c l IH]; intros q H; cbn [qput_all].
  - rewrite app_nil_r, firstn_all2; auto.
  - rewrite IH; [|unfold qput; destruct (Nat.ltb_spec (length q) cap); rewrite ?app_length; cbn; lia].
    rewrite qput_firstn by auto. rewrite firstn_firstn_app, <- app_assoc. auto.
Qed.
Lemma firstn_grows : forall (n : nat) (a b : list N), length a <= n -> exists x, firstn n (a ++ b) = a ++ x.
Proof. intros n a b H. exists (firstn (n - length a) b). rewrite firstn_app, firstn_all2 by auto. auto. Qed.

(** ** C28: one step per key position *)
(** The map selected by the modifiers in force. *)
Definition map_in_force (s : kb) : nat :=
  if ctrl_on s then 3 else if shift_on s then 1 else if caps_on s then 2 else 0.
Definition key_code (s : kb) (r c : nat) : N := code_at (k_cur s) (map_in_force s) r c.

(** A message as a terminal wants it: a carriage return before every line feed. *)
Fixpoint terminal_text (m : list N) : list N :=
  match m with
  | [] => []
  | c :: t => if (c =? 10)%N then 13%N :: 10%N :: terminal_text t else c :: terminal_text t
  end.
Lemma expand_text : forall m, expand m = terminal_text m.
Proof.
  induction m as [|c m IH]; [reflexivity|]. unfold expand in *. cbn [flat_map terminal_text]. rewrite IH.
  destruct (N.eqb_spec c 10); [subst c|]; reflexivity.
Qed.

(** What pressing function key [n] prints. *)
Definition prints (k : N) (code : N) : list N :=
  match decode code with
  | AFn n => match message k n with Some m => terminal_text m | None => [] end
  | _ => []
  end.

(** State before and after the step of key (r, c); [ks], [ms]: the codes and
    message characters it offers to the queues. *)
Record key_event (rd : nat -> N) (r c : nat) (s s1 : kb) (ks ms : list N) : Prop := mkKeyEvent {
  ke_others : forall r' c', r' < 16 -> c' < 8 -> r' <> r \/ c' <> c -> down s1 r' c' = down s r' c';
  ke_idle : down s1 r c = down s r c -> k_mod s1 = k_mod s /\ k_cur s1 = k_cur s;
  ke_keys : ks =
    if negb (down s r c) && down s1 r c && (key_code s r c <=? 0xA0)%N then [key_code s r c]
    else if down s r c && reading rd r c && (key_code s r c =? k_last s)%N && (r_timer (k_rep s) =? 1)%N
         then [key_code s r c] else [];
  ke_last : k_last s1 =
    if negb (down s r c) && down s1 r c && (key_code s r c <=? 0xA0)%N then key_code s r c
    else if down s r c && negb (down s1 r c) && (key_code s r c =? k_last s)%N then 0xA0%N else k_last s;
  ke_msgs : ms = if negb (down s r c) && down s1 r c then prints (k_cur s) (key_code s r c) else [];
  ke_keyq : key_queue s1 = firstn 16 (key_queue s ++ ks);
  ke_msgq : msg_queue s1 = firstn 128 (msg_queue s ++ ms);
  ke_events : exists l, events s1 = events s ++ l /\ Forall silent l
}.

Inductive scan_steps (rd : nat -> N) : list (nat * nat) -> kb -> kb -> list N -> list N -> Prop :=
| scan_done : forall s, scan_steps rd [] s s [] []
| scan_key : forall r c ps s s1 s2 ks ms ks' ms',
    key_event rd r c s s1 ks ms -> scan_steps rd ps s1 s2 ks' ms' ->
    scan_steps rd ((r, c) :: ps) s s2 (ks ++ ks') (ms ++ ms').

Lemma map_force_ok : forall a s, Rel a s -> map_in_force s = map_now (a_mod a).
Proof. intros a s H. unfold map_in_force, map_now, ctrl_on, shift_on, caps_on. rewrite (rl_mod _ _ H). auto. Qed.
Lemma key_code_ok : forall a s r c, Rel a s -> key_code s r c = code_now a r c.
Proof. intros a s r c H. unfold key_code, code_now. rewrite (rl_cur _ _ H), (map_force_ok _ _ H). auto. Qed.

Lemma event_intro : forall rd r c a s a1 s1 l, Rel a s -> Rel a1 s1 -> r < 16 -> c < 8 ->
  a_log a1 = l ++ a_log a -> Forall silent l ->
  (forall r' c', r' <> r \/ c' <> c -> a_dn a1 r' c' = a_dn a r' c') ->
  (a_dn a1 r c = a_dn a r c -> a_mod a1 = a_mod a /\ a_cur a1 = a_cur a) ->
  forall ks ms, 
  ks = (if negb (a_dn a r c) && a_dn a1 r c && (code_now a r c <=? 0xA0)%N then [code_now a r c]
    else if a_dn a r c && reading rd r c && (code_now a r c =? a_last a)%N && (r_timer (a_rep a) =? 1)%N
         then [code_now a r c] else []) ->
  a_last a1 = (if negb (a_dn a r c) && a_dn a1 r c && (code_now a r c <=? 0xA0)%N then code_now a r c
    else if a_dn a r c && negb (a_dn a1 r c) && (code_now a r c =? a_last a)%N then 0xA0%N else a_last a) ->
  ms = (if negb (a_dn a r c) && a_dn a1 r c then prints (a_cur a) (code_now a r c) else []) ->
  a_qk a1 = firstn 16 (a_qk a ++ ks) -> a_qm a1 = firstn 128 (a_qm a ++ ms) ->
  key_event rd r c s s1 ks ms.
Proof.
  intros rd r c a s a1 s1 l RL RL1 Hr Hc HLog HS HO HI ks ms HK HLa HM HQK HQM.
  constructor; rewrite ?(down_ok _ _ _ _ RL), ?(down_ok _ _ _ _ RL1), ?(key_code_ok _ _ _ _ RL),
    ?(rl_mod _ _ RL), ?(rl_mod _ _ RL1), ?(rl_cur _ _ RL), ?(rl_cur _ _ RL1), ?(rl_last _ _ RL), ?(rl_last _ _ RL1),
    ?(rl_rep _ _ RL), ?(key_queue_ok _ _ RL), ?(key_queue_ok _ _ RL1), ?(msg_queue_ok _ _ RL), ?(msg_queue_ok _ _ RL1) by auto; auto.
  - intros r' c' Hr' Hc' Hx. rewrite !(down_ok _ _ _ _ RL), !(down_ok _ _ _ _ RL1) by auto. auto.
  - exists (rev l). rewrite (events_ok _ _ RL), (events_ok _ _ RL1), HLog, rev_app_distr. split; auto. apply Forall_rev. auto.
Qed.

Lemma repeat_due : forall r, fst (repeat_tick r) = (r_timer r =? 1)%N.
Proof.
  intros r. unfold repeat_tick. destruct (N.eqb_spec (r_timer r) 0); cbn [fst]; [lia|]. cbn zeta.
  destruct (N.eqb_spec (r_timer r - 1) 0); cbn [fst]; lia.
Qed.

Lemma on_qm_prints : forall code a, length (a_qm a) <= 128 ->
  a_qm (aaction_on code a) = firstn 128 (a_qm a ++ prints (a_cur a) code).
Proof.
  intros code a H. unfold prints.
  destruct (decode code) eqn:D; try (rewrite on_qm by (intros; congruence); rewrite app_nil_r, firstn_all2 by auto; auto; fail).
  unfold aaction_on. rewrite D. destruct (message (a_cur a) n); [|rewrite app_nil_r, firstn_all2; auto].
  unfold aprint. cbn [a_qm put_qm]. rewrite expand_text. apply qput_all_firstn. auto.
Qed.
Lemma prints_low : forall k code, (code <= 0xA0)%N -> prints k code = [].
Proof.
  intros k code H. unfold prints. destruct (N.eq_dec code 0xA0); [subst; reflexivity|]. rewrite decode_high by lia. auto.
Qed.

(** One concrete key step is such an event. *)
Lemma key_event_ok : forall rd r c a s a1 s1, Rel a s -> Rel a1 s1 -> key_step rd r c a = Some a1 ->
  last_low a -> r < 16 -> c < 8 -> r < 9 \/ (4 <= a_cur a)%N ->
  exists ks ms, key_event rd r c s s1 ks ms.
Proof.
  intros rd r c a s a1 s1 RL RL1 E L Hr Hc HX.
  destruct (qk_bound _ _ RL) as [BK BM].
  assert (FR : forall r' c', r' <> r \/ c' <> c -> a_dn a1 r' c' = a_dn a r' c').
  { intros. apply (key_step_frame _ _ _ _ _ r' c' E). auto. }
  assert (NK : a_qk a = firstn 16 (a_qk a ++ [])) by (rewrite app_nil_r, firstn_all2; auto).
  assert (NM : a_qm a = firstn 128 (a_qm a ++ [])) by (rewrite app_nil_r, firstn_all2; auto).
  destruct (key_step_cases _ _ _ _ _ E) as [H1 H2|H1 H2|H0 H1 H2|H0 H1 H2 H3|H0 H1 H2 H3].
  - exists [], []. apply (event_intro rd r c a s a s1 []); auto; rewrite ?H1, ?H2; auto.
  - exists [], []. eapply (event_intro rd r c a s _ s1 []); [exact RL|exact RL1|..]; auto; cbn [a_dn a_last a_qk a_qm put_ct];
      destruct (a_dn a r c); cbn [negb andb]; auto; destruct (reading rd r c); auto; congruence.
  - destruct (aheld_dn (code_now a r c) a) as [DN _].
    set (due := ((code_now a r c =? a_last a) && (r_timer (a_rep a) =? 1))%N).
    exists (if due then [code_now a r c] else []), [].
    eapply (event_intro rd r c a s _ s1 []); [exact RL|exact RL1|..]; auto; rewrite ?DN, ?H2, ?H1; cbn [negb andb];
      rewrite ?held_log, ?held_mod, ?held_cur, ?held_last, ?held_qm by auto; auto.
    unfold aheld, due. pose proof (repeat_due (a_rep a)) as RD. destruct (N.eqb_spec (code_now a r c) (a_last a)); cbn [andb]; auto.
    destruct (repeat_tick (a_rep a)) as [d q]. cbn [fst] in RD. subst d. destruct (r_timer (a_rep a) =? 1)%N; [|exact NK].
    unfold apress. unfold last_low in L. replace (0xA0 <? code_now a r c)%N with false by lia.
    cbn [a_last put_rep a_qk]. replace (a_last a =? code_now a r c)%N with true by lia. cbn [a_qk put_qk put_rep].
    apply qput_firstn; auto.
  - destruct (apress_dn (code_now a r c) (accept r c true a)) as [DN _].
    destruct (press_log (code_now a r c) (accept r c true a)) as [l [LG SL]].
    assert (NOW : a_dn (apress (code_now a r c) (accept r c true a)) r c = true).
    { rewrite DN. cbn [a_dn accept put_dn]. apply set2_same. }
    exists (if (code_now a r c <=? 0xA0)%N then [code_now a r c] else []), (prints (a_cur a) (code_now a r c)).
    eapply (event_intro rd r c a s _ s1 l); [exact RL|exact RL1|..]; auto; rewrite ?NOW, ?H2, ?H1; cbn [negb andb]; auto; try congruence.
    + unfold apress. destruct (N.ltb_spec 0xA0 (code_now a r c)).
      * replace (code_now a r c <=? 0xA0)%N with false by lia. rewrite on_last. auto.
      * replace (code_now a r c <=? 0xA0)%N with true by lia. cbn [a_last accept put_qk put_dn put_ct].
        destruct (N.eqb_spec (a_last a) (code_now a r c)); auto.
    + unfold apress. destruct (N.ltb_spec 0xA0 (code_now a r c)).
      * replace (code_now a r c <=? 0xA0)%N with false by lia. rewrite on_qk. exact NK.
      * replace (code_now a r c <=? 0xA0)%N with true by lia. cbn [a_last accept put_qk put_dn put_ct a_qk].
        rewrite <- qput_firstn by auto. destruct (a_last a =? code_now a r c)%N; auto.
    + unfold apress. destruct (N.ltb_spec 0xA0 (code_now a r c)).
      * apply (on_qm_prints (code_now a r c) (accept r c true a)). exact BM.
      * rewrite prints_low by lia. cbn [a_last accept put_qk put_dn put_ct a_qm].
        destruct (a_last a =? code_now a r c)%N; exact NM.
  - destruct (arelease_dn (code_now a r c) (accept r c false a)) as [DN _].
    destruct (release_log (code_now a r c) (accept r c false a)) as [l [LG SL]].
    assert (NOW : a_dn (arelease (code_now a r c) (accept r c false a)) r c = false).
    { rewrite DN. cbn [a_dn accept put_dn]. apply set2_same. }
    exists [], [].
    eapply (event_intro rd r c a s _ s1 l); [exact RL|exact RL1|..]; auto; rewrite ?NOW, ?H2, ?H1; cbn [negb andb]; auto; try congruence.
    + unfold arelease. unfold last_low in L. destruct (N.ltb_spec 0xA0 (code_now a r c)).
      * replace (code_now a r c =? a_last a)%N with false by lia. rewrite off_last. auto.
      * cbn [a_last accept put_dn put_ct]. rewrite N.eqb_sym.
        destruct (code_now a r c =? a_last a)%N; auto.
    + unfold arelease. destruct (0xA0 <? code_now a r c)%N; [rewrite off_qk; exact NK|].
      destruct (a_last _ =? _)%N; exact NK.
    + unfold arelease. destruct (0xA0 <? code_now a r c)%N; [rewrite off_qm; exact NM|].
      destruct (a_last _ =? _)%N; exact NM.
Qed.

(** ** The whole scan *)
Lemma key_low : forall rd r c a a', key_step rd r c a = Some a' -> last_low a -> last_low a'.
Proof.
  intros rd r c a a' E L. destruct (key_step_cases _ _ _ _ _ E); auto.
  - apply held_last_low; auto.
  - apply press_last_low; exact L.
  - apply release_last_low; exact L.
Qed.

(** [good rd ps P s]: running the positions [ps] from [s] leads to states
    satisfying [P], and the way is a sequence of key events. *)
Lemma cols_steps : forall n col rd r a s st fuel s', Rel a s -> r < 16 -> r < 9 \/ (4 <= a_cur a)%N /\ r < nrows (a_cur a) ->
  n + col = 8 -> n < fuel -> last_low a ->
  (forall k, col <= k < 8 -> N.testbit st (N.of_nat k) = a_dn a r k) ->
  cols_loop fuel r col (N.shiftr (u8 (rd r)) (N.of_nat col))
       (N.shiftr (N.lxor (u8 (rd r)) st) (N.of_nat col)) s = Ok s' ->
  exists a' ks ms, keys_step rd (map (pair r) (seq col n)) a = Some a' /\ Rel a' s' /\ last_low a' /\
    scan_steps rd (map (pair r) (seq col n)) s s' ks ms.
Proof.
  induction n as [|n IH]; intros col rd r a s st fuel s' H Hr' Hr HN HF L HST HE.
  - destruct fuel; [lia|]. cbn [cols_loop] in HE. rewrite (num_cols_ok _ _ H) in HE. cbn [bind] in HE.
    replace (col <? 8) with false in HE by lia. inv HE. exists a, [], []. repeat (split; auto). constructor.
  - destruct fuel; [lia|]. cbn [cols_loop] in HE. rewrite (num_cols_ok _ _ H) in HE. cbn [bind] in HE.
    replace (col <? 8) with true in HE by lia.
    rewrite !div2_shiftr, !odd_shiftr in HE.
    pose proof (rows_ge _ (rl_lt _ _ H)) as HG.
    assert (K := key_sim rd r col a s H ltac:(lia) ltac:(lia)). unfold one_key in K.
    replace (N.testbit (u8 (rd r)) (N.of_nat col)) with (reading rd r col) in HE
      by (unfold reading; rewrite u8_bit by lia; auto).
    replace (N.testbit (N.lxor (u8 (rd r)) st) (N.of_nat col))
      with (xorb (reading rd r col) (a_dn a r col)) in HE.
    2:{ rewrite N.lxor_spec, u8_bit by lia. rewrite HST by lia. reflexivity. }
    destruct (key_step rd r col a) as [a1|] eqn:EK; cbn [sim] in K.
    + destruct K as [s1 [E1 R1]]. rewrite E1 in HE. cbn [bind] in HE.
      destruct (key_step_rows _ _ _ _ _ EK (rl_lt _ _ H)) as [C1 C2].
      destruct (key_event_ok _ _ _ _ _ _ _ H R1 EK L Hr' ltac:(lia)) as [ks [ms KE]]; [tauto|].
      edestruct (IH (S col) rd r a1 s1 st fuel s') as (a'&ks'&ms'&I1&I2&I3&I4); auto; try lia.
      * destruct Hr as [Hr|[Hr1 Hr2]]; [left; auto|]. right. rewrite C2; auto.
      * eapply key_low; eauto.
      * intros k Hk. rewrite HST by lia. symmetry. eapply (key_step_frame rd r col a a1 r k EK). lia.
      * exists a', (ks ++ ks'), (ms ++ ms'). cbn [map seq].
        split; [cbn [keys_step]; rewrite EK; exact I1|]. split; auto. split; auto. econstructor; eauto.
    + rewrite K in HE. discriminate.
Qed.

Lemma row_steps : forall rd r a s s', Rel a s -> r < 9 \/ (4 <= a_cur a)%N /\ r < nrows (a_cur a) -> last_low a ->
  (st <- lget UScanOob (k_stable s) r ;; cols_loop 256 r 0 (u8 (rd r)) (N.lxor (u8 (rd r)) st) s) = Ok s' ->
  exists a' ks ms, keys_step rd (map (pair r) (seq 0 8)) a = Some a' /\ Rel a' s' /\ last_low a' /\
    scan_steps rd (map (pair r) (seq 0 8)) s s' ks ms.
Proof.
  intros rd r a s s' H Hr L HE. pose proof (rows_ge _ (rl_lt _ _ H)) as HG.
  assert (HS : r < length (k_stable s)) by (rewrite (rl_stlen _ _ H); lia).
  destruct (nth_error_ex _ _ _ HS) as [b EB].
  rewrite (proj2 (lget_ok _ _ _ _ _) EB) in HE. cbn [bind] in HE.
  rewrite (rl_stlen _ _ H) in HS.
  assert (BT : forall k, 0 <= k < 8 -> N.testbit b (N.of_nat k) = a_dn a r k)
    by (intros k Hk; apply (rl_stable _ _ H _ _ EB); lia).
  assert (HE' : cols_loop 256 r 0 (N.shiftr (u8 (rd r)) (N.of_nat 0)) (N.shiftr (N.lxor (u8 (rd r)) b) (N.of_nat 0)) s = Ok s').
  { change (N.of_nat 0) with 0%N. rewrite !N.shiftr_0_r. exact HE. }
  exact (cols_steps 8 0 rd r a s b 256 s' H HS Hr eq_refl ltac:(apply Nat.ltb_lt; reflexivity) L BT HE').
Qed.

Lemma steps_app : forall rd p s s1 ks ms, scan_steps rd p s s1 ks ms ->
  forall q s2 ks' ms', scan_steps rd q s1 s2 ks' ms' -> scan_steps rd (p ++ q) s s2 (ks ++ ks') (ms ++ ms').
Proof.
  induction 1 as [|r c ps s s1 s2 ks ms ks1 ms1 K S IH]; intros; auto.
  cbn [app]. rewrite <- !app_assoc. econstructor; eauto.
Qed.

Lemma rows_steps : forall m row fuel rd a s s', Rel a s -> last_low a -> row + m = 13 -> m + 3 < fuel ->
  (row <= 9 \/ (4 <= a_cur a)%N) -> row <= nrows (a_cur a) ->
  rows_loop fuel rd row s = Ok s' ->
  exists a' ks ms, Rel a' s' /\ last_low a' /\ row <= nrows (a_cur a') /\
    scan_steps rd (grid row (nrows (a_cur a') - row)) s s' ks ms.
Proof.
  induction m as [|m IH]; intros row fuel rd a s s' H L HM HF HR HRN HE.
  - (* the thirteenth row is the last of any keyboard *)
    destruct fuel; [lia|]. rewrite rows_loop_step, (num_rows_ok _ _ H) in HE. cbn [bind] in HE.
    pose proof (rows_ge _ (rl_lt _ _ H)) as HG. replace (row <? nrows (a_cur a)) with false in HE by lia. inv HE.
    exists a, [], []. split; auto. split; auto. split; [lia|]. replace (nrows (a_cur a) - row) with 0 by lia. constructor.
  - destruct fuel; [lia|]. rewrite rows_loop_step, (num_rows_ok _ _ H) in HE. cbn [bind] in HE.
    pose proof (rows_ge _ (rl_lt _ _ H)) as HG.
    destruct (Nat.ltb_spec row (nrows (a_cur a))).
    + assert (HQ : row < 9 \/ (4 <= a_cur a)%N /\ row < nrows (a_cur a)).
      { destruct (Nat.ltb_spec row 9); auto. right. split; auto. destruct (N.leb_spec 4 (a_cur a)); auto.
        rewrite rows_9 in * by auto. lia. }
      destruct (st <- lget UScanOob (k_stable s) row ;; cols_loop 256 row 0 (u8 (rd row)) (N.lxor (u8 (rd row)) st) s) as [s1|] eqn:E1;
        [|discriminate]. cbn [bind] in HE.
      destruct (row_steps _ _ _ _ _ H HQ L E1) as (a1&ks&ms&K1&R1&L1&S1).
      destruct (keys_cur_high _ _ _ _ K1 (rl_lt _ _ H)) as [C1 C2].
      pose proof (rows_ge _ C1) as HG1.
      assert (HC2 : (4 <= a_cur a)%N -> nrows (a_cur a1) = nrows (a_cur a)) by (intros; rewrite C2; auto).
      destruct (IH (S row) fuel rd a1 s1 s' R1 L1 ltac:(lia) ltac:(lia)) as (a'&ks'&ms'&R2&L2&N2&S2); auto.
      * destruct (Nat.ltb_spec row 9); [left; lia|]. right. destruct HQ as [HQ|[HQ _]]; [lia|]. rewrite C2; auto.
      * destruct HQ as [HQ|[HQ1 HQ2]]; [lia|]. rewrite HC2; auto.
      * exists a', (ks ++ ks'), (ms ++ ms'). split; auto. split; auto. split; [lia|].
        replace (nrows (a_cur a') - row) with (S (nrows (a_cur a') - S row)) by lia.
        rewrite grid_cons. eapply steps_app; eauto.
    + inv HE. exists a, [], []. split; auto. split; auto. split; [lia|].
      replace (nrows (a_cur a) - row) with 0 by lia. constructor.
Qed.

Lemma scan_trail : forall rd a s s', Rel a s -> last_low a -> keyscan rd s = Ok s' ->
  exists a' ks ms, Rel a' s' /\ last_low a' /\ scan_steps rd (grid 0 (nrows (k_cur s'))) s s' ks ms.
Proof.
  intros rd a s s' H L HE. unfold keyscan in HE.
  assert (HG : hook_get HOOK_ROW_SCANNER (k_hook s) = Ok HReadRow) by (rewrite (rl_hook _ _ H); reflexivity).
  rewrite HG in HE. cbn [bind] in HE.
  assert (HX : hook_execute HOOK_EACH_SCAN s = Ok s).
  { unfold hook_execute. rewrite (rl_hook _ _ H). reflexivity. }
  rewrite HX in HE. cbn [bind] in HE.
  destruct (rows_steps 13 0 256 rd a s s' H L eq_refl ltac:(apply Nat.ltb_lt; reflexivity) ltac:(left; lia) ltac:(lia) HE)
    as (a'&ks&ms&R1&L1&_&S1).
  exists a', ks, ms. split; auto. split; auto. rewrite (rl_cur _ _ R1). rewrite Nat.sub_0_r in S1. exact S1.
Qed.

(** The queues after a scan. *)
Lemma steps_queues : forall rd ps s s' ks ms, scan_steps rd ps s s' ks ms ->
  length (key_queue s) <= 16 -> length (msg_queue s) <= 128 ->
  key_queue s' = firstn 16 (key_queue s ++ ks) /\ msg_queue s' = firstn 128 (msg_queue s ++ ms) /\
  exists l, events s' = events s ++ l /\ Forall silent l.
Proof.
  induction 1 as [s|r c ps s s1 s2 ks ms ks1 ms1 K HS IH]; intros BK BM.
  - rewrite !app_nil_r, !firstn_all2 by auto. repeat split. exists []. rewrite app_nil_r. auto.
  - destruct K as [_ _ _ _ _ QK QM [l [EV SL]]].
    destruct IH as (I1&I2&l2&I3&I4).
    + rewrite QK. apply firstn_le_length.
    + rewrite QM. apply firstn_le_length.
    + rewrite I1, I2, QK, QM, !firstn_firstn_app, <- !app_assoc. repeat split; auto.
      exists (l ++ l2). rewrite I3, EV, app_assoc. split; auto. apply Forall_app. auto.
Qed.

Lemma half_ok : forall rds s, run rds = Ok s -> exists a s1, arun rds = Some a /\ Rel a s /\ last_low a /\
  sender s = Ok s1 /\ Rel (asend a) s1 /\ last_low (asend a).
Proof.
  intros rds s H. destruct (reach _ _ H) as [a [A RL]]. destruct (sender_ok _ _ RL) as [s1 [E R1]].
  exists a, s1. pose proof (run_low _ _ A) as L. repeat (split; auto). unfold last_low. rewrite send_last. exact L.
Qed.

(** The scan of a tick visits every key in row-major order, each step being a
    key event seen from the state the previous steps left; the queues receive
    exactly what those events offer, in that order, up to their capacity. *)
Theorem C28_scan_types_pressed_keys : forall rds s s1 rd s', run rds = Ok s -> sender s = Ok s1 -> keyscan rd s1 = Ok s' ->
  exists ks ms, scan_steps rd (grid 0 (nrows (k_cur s'))) s1 s' ks ms /\
    key_queue s' = firstn 16 (key_queue s1 ++ ks) /\ msg_queue s' = firstn 128 (msg_queue s1 ++ ms).
Proof.
  intros rds s s1 rd s' H HS HK. destruct (half_ok _ _ H) as (a&s1'&A&RL&L&E&R1&L1).
  rewrite E in HS. inv HS. destruct (scan_trail _ _ _ _ R1 L1 HK) as (a'&ks&ms&R2&L2&ST).
  destruct (qk_bound _ _ R1) as [BK BM]. rewrite <- (key_queue_ok _ _ R1) in BK. rewrite <- (msg_queue_ok _ _ R1) in BM.
  exists ks, ms. split; auto. destruct (steps_queues _ _ _ _ _ _ ST BK BM) as (Q1&Q2&_). auto.
Qed.
Print Assumptions C28_scan_types_pressed_keys.

(** Positions are visited exactly once, row by row. *)
Theorem C28_scan_order : forall n i, i < n * 8 -> nth_error (grid 0 n) i = Some (i / 8, i mod 8).
Proof.
  intros n i. assert (G : forall n r i, i < n * 8 -> nth_error (grid r n) i = Some (r + i / 8, i mod 8)).
  { clear. induction n as [|n IH]; intros r i Hi; [lia|]. rewrite grid_cons.
    destruct (Nat.ltb_spec i 8).
    - rewrite nth_error_app1 by (rewrite map_length, seq_length; auto).
      rewrite Nat.div_small, Nat.mod_small by auto. rewrite Nat.add_0_r.
      do 8 (destruct i as [|i]; [reflexivity|]). lia.
    - rewrite nth_error_app2 by (rewrite map_length, seq_length; auto). rewrite map_length, seq_length.
      rewrite IH by lia. replace i with (i - 8 + 1 * 8) at 3 4 by lia.
      rewrite Nat.div_add, Nat.mod_add by lia. f_equal. f_equal; lia. }
  intros Hi. rewrite G by auto. auto.
Qed.
Print Assumptions C28_scan_order.

(** Two keys accepted in the same scan, the second under the SHIFT that the same
    scan activates: 'P' typed although SHIFT went down in this very scan. *)
Example C28_example :
  obs key_queue (run (hold 9 [(0, 1); (1, 1)])) = Some [] /\
  obs key_queue (run (hold 10 [(0, 1); (1, 1)])) = Some [80%N].
Proof. vm_compute. auto. Qed.

(** ** C37 *)
(** What a tick sends: the oldest message character after its delay, else the
    oldest key code unless it is 0xA0 or above. *)
Definition tick_sends (s : kb) : list event :=
  match msg_queue s, key_queue s with
  | c :: _, _ => [EvDelayMs 40; EvSend c]
  | [], c :: _ => if (c <? 0xA0)%N then [EvSend c] else []
  | [], [] => []
  end.

Theorem C37_one_code_per_tick : forall rds s rd s', run rds = Ok s -> tick rd s = Ok s' ->
  exists l, events s' = events s ++ tick_sends s ++ l /\ Forall silent l.
Proof.
  intros rds s rd s' H HT. rewrite tick_halves in HT. destruct (half_ok _ _ H) as (a&s1&A&RL&L&E&R1&L1).
  rewrite E in HT. cbn [bind] in HT.
  destruct (scan_trail _ _ _ _ R1 L1 HT) as (a'&ks&ms&R2&L2&ST).
  destruct (qk_bound _ _ R1) as [BK BM]. rewrite <- (key_queue_ok _ _ R1) in BK. rewrite <- (msg_queue_ok _ _ R1) in BM.
  destruct (steps_queues _ _ _ _ _ _ ST BK BM) as (_&_&l&EV&SL). exists l. rewrite EV, app_assoc. split; auto. f_equal.
  rewrite (events_ok _ _ RL), (events_ok _ _ R1). unfold tick_sends, asend.
  rewrite (msg_queue_ok _ _ RL), (key_queue_ok _ _ RL).
  destruct (a_qm a) as [|c q].
  - destruct (a_qk a) as [|c q]; [rewrite app_nil_r; auto|]. destruct (c <? 0xA0)%N; cbn [a_log note put_log put_qk rev]; auto.
    rewrite app_nil_r. auto.
  - cbn [a_log note put_log put_qm rev]. rewrite <- app_assoc. auto.
Qed.
Print Assumptions C37_one_code_per_tick.

(** A message character waits and so does a key code: the message goes first. *)
Example C37_example :
  obs (fun s => (length (msg_queue s), key_queue s)) (run (hold 10 [(0, 6)] ++ hold 10 [(0, 6); (6, 5); (1, 1)])) = Some (19, [16%N]).
Proof. vm_compute. reflexivity. Qed.

(** ** C36 *)
Fixpoint pending (delayed : bool) (evs : list event) : bool :=
  match evs with
  | [] => delayed
  | EvDelayMs _ :: t => pending true t
  | EvSend c :: t => pending false t
  | _ :: t => pending delayed t
  end.
Lemma source_app : forall l1 l2 d, by_source d (l1 ++ l2) = by_source d l1 ++ by_source (pending d l1) l2.
Proof. induction l1 as [|e l1 IH]; intros l2 d; auto. destruct e; cbn; rewrite ?IH; auto. Qed.
Lemma pending_app : forall l1 l2 d, pending d (l1 ++ l2) = pending (pending d l1) l2.
Proof. induction l1 as [|e l1 IH]; intros l2 d; auto. destruct e; cbn; auto. Qed.
Lemma source_silent : forall l d, Forall silent l -> by_source d l = [] /\ pending d l = d.
Proof. intros l d H. induction H as [|e l H HF IH]; auto. destruct e; cbn in *; auto; contradiction. Qed.

(** What leaves the queues in one tick. *)
Definition leaving_m (s : kb) : list N := firstn 1 (msg_queue s).
Definition leaving_k (s : kb) : list N := match msg_queue s with [] => firstn 1 (key_queue s) | _ => [] end.

Lemma tick_flow : forall rds s rd s', run rds = Ok s -> tick rd s = Ok s' ->
  exists s1 kn mn, sender s = Ok s1 /\ keyscan rd s1 = Ok s' /\
    key_queue s = leaving_k s ++ key_queue s1 /\ key_queue s' = key_queue s1 ++ kn /\
    msg_queue s = leaving_m s ++ msg_queue s1 /\ msg_queue s' = msg_queue s1 ++ mn /\
    Forall (fun c => (c < 160)%N) (msg_queue s) /\
    (pending false (events s) = false ->
     pending false (events s') = false /\
     by_source false (events s') = by_source false (events s) ++
       map (pair true) (leaving_m s) ++ map (pair false) (filter (fun c => c <? 0xA0)%N (leaving_k s))).
Proof.
  intros rds s rd s' H HT. destruct (C37_one_code_per_tick _ _ _ _ H HT) as [l [EV SL]].
  rewrite tick_halves in HT. destruct (half_ok _ _ H) as (a&s1&A&RL&L&E&R1&L1).
  rewrite E in HT. cbn [bind] in HT.
  destruct (scan_trail _ _ _ _ R1 L1 HT) as (a'&ks&ms&R2&L2&ST).
  destruct (qk_bound _ _ R1) as [BK BM]. rewrite <- (key_queue_ok _ _ R1) in BK. rewrite <- (msg_queue_ok _ _ R1) in BM.
  destruct (steps_queues _ _ _ _ _ _ ST BK BM) as (Q1&Q2&_).
  destruct (firstn_grows 16 _ ks BK) as [kn KN]. destruct (firstn_grows 128 _ ms BM) as [mn MN].
  exists s1, kn, mn. split; auto. split; auto. rewrite Q1, Q2.
  pose proof (rl_qm _ _ RL) as LOW. rewrite <- (msg_queue_ok _ _ RL) in LOW.
  assert (QQ : key_queue s = leaving_k s ++ key_queue s1 /\ msg_queue s = leaving_m s ++ msg_queue s1).
  { unfold leaving_k, leaving_m. rewrite (key_queue_ok _ _ RL), (key_queue_ok _ _ R1), (msg_queue_ok _ _ RL), (msg_queue_ok _ _ R1).
    unfold asend. destruct (a_qm a) as [|c q] eqn:QM; [|cbn; auto].
    destruct (a_qk a) as [|c q] eqn:QK; [rewrite QK, QM; auto|]. destruct (c <? 0xA0)%N; cbn [a_qk a_qm note put_log put_qk]; rewrite QM; auto. }
  destruct QQ as [QQ1 QQ2]. split; auto. split; auto. split; auto. split; auto. split; auto.
  intros PD. rewrite EV, !pending_app, PD, !source_app, PD.
  destruct (source_silent l (pending false (tick_sends s)) SL) as [-> ->].
  unfold tick_sends, leaving_m, leaving_k. destruct (msg_queue s) as [|c q].
  - destruct (key_queue s) as [|c q]; [auto|]. cbn [firstn filter]. destruct (c <? 0xA0)%N; auto.
  - auto.
Qed.

Lemma flow : forall rds pre s s', run pre = Ok s -> ticks rds s = Ok s' -> pending false (events s) = false ->
  exists kp mp, key_queue s ++ entered key_queue rds s = kp ++ key_queue s' /\
    msg_queue s ++ entered msg_queue rds s = mp ++ msg_queue s' /\
    pending false (events s') = false /\
    keys_sent s' = keys_sent s ++ filter (fun c => c <? 0xA0)%N kp /\
    msgs_sent s' = msgs_sent s ++ mp /\ Forall (fun c => (c < 0xA0)%N) mp.
Proof.
  induction rds as [|rd rds IH]; intros pre s s' H HT PD.
  - change (ticks [] s) with (Ok s) in HT. inv HT. exists [], []. cbn [entered filter]. rewrite !app_nil_r. auto 10.
  - change (ticks (rd :: rds) s) with (bind (tick rd s) (ticks rds)) in HT.
    destruct (tick rd s) as [s2|] eqn:ET; [|discriminate]. cbn [bind] in HT.
    destruct (tick_flow _ _ _ _ H ET) as (s1&kn&mn&E1&E2&K1&K2&M1&M2&LOW&EV). destruct (EV PD) as [PD2 SRC].
    assert (H2 : run (pre ++ [rd]) = Ok s2).
    { rewrite run_app, H. cbn [bind]. change (ticks [rd] s) with (bind (tick rd s) (ticks [])). rewrite ET. reflexivity. }
    destruct (IH _ _ _ H2 HT PD2) as (kp&mp&F1&F2&F3&F4&F5&F6).
    exists (leaving_k s ++ kp), (leaving_m s ++ mp). cbn [entered]. rewrite E1, E2.
    rewrite K2, skipn_app, skipn_all, Nat.sub_diag. cbn [skipn app].
    rewrite M2, skipn_app, skipn_all, Nat.sub_diag. cbn [skipn app].
    rewrite K2, <- app_assoc in F1. rewrite M2, <- app_assoc in F2.
    split; [rewrite K1 at 1; rewrite <- !app_assoc; f_equal; exact F1|].
    split; [rewrite M1 at 1; rewrite <- !app_assoc; f_equal; exact F2|].
    split; auto.
    assert (KS : keys_sent s2 = keys_sent s ++ filter (fun c => c <? 0xA0)%N (leaving_k s)).
    { unfold keys_sent. rewrite SRC, !filter_app, !map_app. f_equal.
      assert (X : forall l : list N, map snd (filter (fun x => negb (fst x)) (map (pair true) l)) = [])
        by (induction l; auto). rewrite X. cbn [app].
      assert (Y : forall l : list N, map snd (filter (fun x => negb (fst x)) (map (pair false) l)) = l)
        by (clear; induction l as [|x l IHl]; cbn; congruence). apply Y. }
    assert (MS : msgs_sent s2 = msgs_sent s ++ leaving_m s).
    { unfold msgs_sent. rewrite SRC, !filter_app, !map_app. f_equal.
      assert (X : forall l : list N, map snd (filter fst (map (pair false) l)) = [])
        by (induction l; auto). rewrite X, app_nil_r.
      assert (Y : forall l : list N, map snd (filter fst (map (pair true) l)) = l)
        by (clear; induction l as [|x l IHl]; cbn; congruence). apply Y. }
    rewrite F4, KS, filter_app, app_assoc. split; auto. rewrite F5, MS, app_assoc. split; auto.
    apply Forall_app. split; auto. unfold leaving_m. destruct (msg_queue s); [constructor|]. cbn [firstn]. inv LOW. auto.
Qed.

Lemma sent_sources : forall evs d, map snd (by_source d evs) = sends evs.
Proof.
  induction evs as [|e evs IH]; intros d; auto. destruct e; cbn; auto. f_equal. auto.
Qed.

Lemma bind_split : forall A B (o : outcome A) (f : A -> outcome B) b, bind o f = Ok b -> exists a, o = Ok a /\ f a = Ok b.
Proof. intros A B o f b H. destruct o as [a|]; [|discriminate]. exists a. auto. Qed.
Arguments bind_split {A B}.
Lemma run_boot : forall rds s, run rds = Ok s -> exists s0, run [] = Ok s0 /\ ticks rds s0 = Ok s.
Proof. intros rds s H. change rds with ([] ++ rds) in H. rewrite run_app in H. apply bind_split in H. exact H. Qed.
Lemma boot_events : forall s0, run [] = Ok s0 ->
  key_queue s0 = [] /\ msg_queue s0 = [] /\ pending false (events s0) = false /\ keys_sent s0 = [] /\ msgs_sent s0 = [].
Proof.
  intros s0 H0.
  assert (X : obs (fun s => (key_queue s, msg_queue s, pending false (events s), keys_sent s, msgs_sent s)) (run []) = Some ([], [], false, [], []))
    by (vm_compute; reflexivity).
  rewrite H0 in X. cbn [obs] in X. repeat split; congruence.
Qed.

Lemma boot_flow : forall rds s0 s, run [] = Ok s0 -> ticks rds s0 = Ok s ->
  exists kp mp, entered key_queue rds s0 = kp ++ key_queue s /\ keys_sent s = filter (fun c => c <? 0xA0)%N kp /\
    entered msg_queue rds s0 = mp ++ msg_queue s /\ msgs_sent s = mp /\ Forall (fun c => (c < 0xA0)%N) mp.
Proof.
  intros rds s0 s HB HT. destruct (boot_events _ HB) as (X1&X2&X3&X4&X5).
  destruct (flow rds [] s0 s HB HT X3) as (kp&mp&F1&F2&F3&F4&F5&F6).
  exists kp, mp. rewrite X1 in F1. rewrite X2 in F2. rewrite X4 in F4. rewrite X5 in F5. auto.
Qed.

(** Per source, what was sent is what left the queue; what left the queue followed
    by what is still waiting is what entered it, in order. *)
Theorem C36_sent_is_what_entered : forall rds s0 s, run [] = Ok s0 -> ticks rds s0 = Ok s ->
  exists kp mp, entered key_queue rds s0 = kp ++ key_queue s /\ keys_sent s = filter (fun c => c <? 0xA0)%N kp /\
    entered msg_queue rds s0 = mp ++ msg_queue s /\ msgs_sent s = mp.
Proof.
  intros rds s0 s HB HT. destruct (boot_flow _ _ _ HB HT) as (kp&mp&F1&F2&F3&F4&F5). eauto 10.
Qed.
Print Assumptions C36_sent_is_what_entered.

Theorem C36_no_special_code_sent : forall rds s, run rds = Ok s -> Forall (fun c => (c < 0xA0)%N) (sent s).
Proof.
  intros rds s H. apply run_boot in H. destruct H as [s0 [HB H]].
  destruct (boot_flow _ _ _ HB H) as (kp&mp&F1&F4&F3&F5&F6). clear F1 F3.
  unfold sent. rewrite <- (sent_sources (events s) false). apply Forall_forall. intros c Hc.
  apply in_map_iff in Hc. destruct Hc as [[b x] [Ex Hin]]. cbn [snd] in Ex. subst x. destruct b.
  - rewrite Forall_forall in F6. apply F6. rewrite <- F5. unfold msgs_sent. apply in_map_iff.
    exists (true, c). split; auto. apply filter_In. auto.
  - assert (I : In c (keys_sent s)).
    { unfold keys_sent. apply in_map_iff. exists (false, c). split; auto. apply filter_In. auto. }
    rewrite F4 in I. apply filter_In in I. destruct I as [_ I]. apply N.ltb_lt in I. exact I.
Qed.
Print Assumptions C36_no_special_code_sent.

(** Both sources and a discarded 0xA0 in one run. *)
Example C36_example :
  obs (fun s => (keys_sent s, length (msgs_sent s), length (msg_queue s))) 
    (run (hold 12 [(0, 0)] ++ hold 12 [] ++ hold 12 [(0, 6)] ++ hold 14 [(0, 6); (6, 5); (1, 1)])) = Some ([], 4, 15) /\
  obs (fun s => (keys_sent s, length (msgs_sent s), length (msg_queue s))) 
    (run (hold 12 [(0, 0)] ++ hold 12 [] ++ hold 12 [(0, 6)] ++ hold 40 [(0, 6); (6, 5); (1, 1)])) = Some ([16%N], 19, 0).
Proof. vm_compute. auto. Qed.

(** ** C38 *)
Lemma msg_prefix : forall rds pre s s', run pre = Ok s -> ticks rds s = Ok s' -> length rds <= length (msg_queue s) ->
  sent s' = sent s ++ firstn (length rds) (msg_queue s).
Proof.
  induction rds as [|rd rds IH]; intros pre s s' H HT HL.
  - change (ticks [] s) with (Ok s) in HT. inv HT. cbn. rewrite app_nil_r. auto.
  - change (ticks (rd :: rds) s) with (bind (tick rd s) (ticks rds)) in HT.
    destruct (tick rd s) as [s2|] eqn:ET; [|discriminate]. cbn [bind] in HT.
    destruct (tick_flow _ _ _ _ H ET) as (s1&kn&mn&E1&E2&K1&K2&M1&M2&LOW&EV).
    destruct (C37_one_code_per_tick _ _ _ _ H ET) as [l [EVS SL]].
    assert (H2 : run (pre ++ [rd]) = Ok s2).
    { rewrite run_app, H. cbn [bind]. change (ticks [rd] s) with (bind (tick rd s) (ticks [])). rewrite ET. reflexivity. }
    destruct (msg_queue s) as [|c q] eqn:MQ; cbn [length] in HL; [lia|].
    unfold leaving_m in M1. rewrite MQ in M1. cbn [firstn app] in M1. inv M1.
    rewrite (IH _ _ _ H2 HT) by (rewrite M2, app_length; lia).
    unfold sent. rewrite EVS, !sends_app, (silent_sends _ SL). unfold tick_sends. rewrite MQ. cbn [sends flat_map app length firstn].
    rewrite ?app_nil_r, M2, firstn_app. replace (length rds - length (msg_queue s1)) with 0 by lia.
    cbn [firstn]. rewrite ?app_nil_r, <- ?app_assoc. auto.
Qed.

(** Whatever the keys do meanwhile (other messages included), the next codes
    sent are the waiting message characters in order, one per tick. *)
Theorem C38_waiting_message_goes_out : forall pre s rds s', run pre = Ok s -> ticks rds s = Ok s' ->
  length rds <= length (msg_queue s) -> sent s' = sent s ++ firstn (length rds) (msg_queue s).
Proof. intros. eapply msg_prefix; eauto. Qed.
Print Assumptions C38_waiting_message_goes_out.

(** The messages fit. *)
Lemma message_fits : forall k n m, (k < 6)%N -> message k n = Some m -> length (terminal_text m) <= 128.
Proof.
  intros k n m Hk E.
  assert (F : forallb (fun k => forallb (fun n => match message k n with Some m => length (terminal_text m) <=? 128 | None => true end) (seq 0 11)) [0;1;2;3;4;5]%N = true)
    by (vm_compute; reflexivity).
  assert (HN : n < 11).
  { destruct (Nat.ltb_spec n 11); auto. do 11 (destruct n as [|n]; [lia|]). kcases k; discriminate. }
  rewrite forallb_forall in F. assert (IK : In k [0;1;2;3;4;5]%N) by (cbn; lia). specialize (F _ IK).
  rewrite forallb_forall in F. assert (IN : In n (seq 0 11)) by (rewrite in_seq; lia). specialize (F _ IN). rewrite E in F. lia.
Qed.

(** A scan that triggers exactly one message with nothing waiting: the host then
    receives that message, every line feed after a carriage return, before
    anything else. *)
Theorem C38_message_intact : forall pre s s1 rd s' ks k n m rds s2,
  run pre = Ok s -> sender s = Ok s1 -> msg_queue s1 = [] ->
  scan_steps rd (grid 0 (nrows (k_cur s'))) s1 s' ks (terminal_text m) -> keyscan rd s1 = Ok s' ->
  (k < 6)%N -> message k n = Some m ->
  ticks rds s' = Ok s2 -> length rds = length (terminal_text m) ->
  sent s2 = sent s' ++ terminal_text m.
Proof.
  intros pre s s1 rd s' ks k n m rds s2 H HS HQ HT HK Hk HM HR HL.
  destruct (half_ok _ _ H) as (a&s1'&A&RL&L&E&R1&L1). rewrite E in HS. inv HS.
  destruct (qk_bound _ _ R1) as [BK BM]. rewrite <- (key_queue_ok _ _ R1) in BK. rewrite <- (msg_queue_ok _ _ R1) in BM.
  destruct (steps_queues _ _ _ _ _ _ HT BK BM) as (_&Q2&_). rewrite HQ in Q2. cbn [app] in Q2.
  rewrite firstn_all2 in Q2 by (eapply message_fits; eauto).
  assert (HT' : tick rd s = Ok s') by (rewrite tick_halves, E; exact HK).
  assert (H2 : run (pre ++ [rd]) = Ok s').
  { rewrite run_app, H. cbn [bind]. change (ticks [rd] s) with (bind (tick rd s) (ticks [])). rewrite HT'. reflexivity. }
  rewrite (msg_prefix _ _ _ _ H2 HR) by (rewrite Q2; lia). rewrite Q2, HL, firstn_all. auto.
Qed.
Print Assumptions C38_message_intact.

(** CTRL-FN10 of the classic keyboard. *)
Example C38_example :
  message 0 10 = Some msg_classic_id /\
  obs msg_queue (run (hold 10 [(0, 6)] ++ hold 10 [(0, 6); (6, 5)])) = Some (terminal_text msg_classic_id) /\
  obs sent (run (hold 10 [(0, 6)] ++ hold 29 [(0, 6); (6, 5)])) = Some (terminal_text msg_classic_id).
Proof. vm_compute. auto. Qed.
