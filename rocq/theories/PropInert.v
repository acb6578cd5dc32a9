(** Unassigned keys and configuration switches: C39, C40. *)
From Coq Require Import List NArith ZArith Arith Bool Lia.
From Coq Require Import ZifyBool ZifyNat ZifyN.
From Verif Require Import Base Lib Buffer BufferSpec BufferProofs Repeat Devices DevSpec DevProofs
     Modifiers Hook KeymapData Asdf KeySpec KeyRef Obs Frames PropModState PropQueues.
Import ListNotations.

(** Key (r, c) of keyboard [k] carries no character and no message in any map. *)
Definition mute (k : N) (r c : nat) : Prop :=
  forall m, m < 4 -> (0xA0 <= code_at k m r c)%N /\ prints k (code_at k m r c) = [].

(** Only keys that are mute on all of the keyboards [K] are closed. *)
Definition only_mute (K : N -> Prop) (rd : nat -> N) : Prop :=
  forall r c, r < 9 -> c < 8 -> reading rd r c = true -> forall k, K k -> mute k r c.
(** Keyboard selection switches open. *)
Definition no_mapsel (rd : nat -> N) : Prop := forall c, c < 4 -> reading rd 8 c = false.

Definition MuteInv (K : N -> Prop) (sel : bool) (a : akb) : Prop :=
  a_last a = 0xA0%N /\ Forall (fun x => x = 0xA0%N) (a_qk a) /\ a_qm a = [] /\ sends (rev (a_log a)) = [] /\
  (forall r c, r < 9 -> c < 8 -> a_dn a r c = true -> forall k, K k -> mute k r c) /\
  (sel = false -> a_cur a = 0%N /\ forall c, c < 4 -> a_dn a 8 c = false).

Lemma sends_silent_more : forall l log, Forall silent l -> sends (rev log) = [] -> sends (rev (l ++ log)) = [].
Proof. intros l log H E. rewrite rev_app_distr, sends_app, E. apply silent_sends, Forall_rev. auto. Qed.

Definition sel_codes (k : N) (m r c : nat) (code : N) : bool :=
  match decode code with AMapsel n => (r =? 8) && (c <? 4) | _ => true end.
Lemma sel_codes_ok : all_codes sel_codes = true.
Proof. vm_compute. reflexivity. Qed.

Lemma prints_none : forall code a, prints (a_cur a) code = [] -> a_qm (aaction_on code a) = a_qm a.
Proof.
  intros code a H. destruct (decode code) eqn:D; try (apply on_qm; intros n0; congruence).
  unfold aaction_on. rewrite D. unfold prints in H. rewrite D in H. destruct (message (a_cur a) n) as [m|]; auto.
  unfold aprint. rewrite expand_text, H. reflexivity.
Qed.

Lemma press_mute : forall code a, a_last a = 0xA0%N -> Forall (fun x => x = 0xA0%N) (a_qk a) -> (0xA0 <= code)%N ->
  prints (a_cur a) code = [] ->
  a_last (apress code a) = 0xA0%N /\ Forall (fun x => x = 0xA0%N) (a_qk (apress code a)) /\ a_qm (apress code a) = a_qm a.
Proof.
  intros code a HL HQ HC HP. unfold apress. destruct (N.ltb_spec 0xA0 code).
  - rewrite on_last, on_qk, prints_none; auto.
  - assert (code = 0xA0%N) by lia. subst code. rewrite HL, N.eqb_refl. cbn [a_last a_qk a_qm put_qk]. split; auto. split; auto.
    unfold qput. destruct (_ <? _); auto. apply Forall_app. auto.
Qed.
Lemma release_mute : forall code a, a_last a = 0xA0%N ->
  a_last (arelease code a) = 0xA0%N /\ a_qk (arelease code a) = a_qk a /\ a_qm (arelease code a) = a_qm a.
Proof.
  intros code a HL. unfold arelease. destruct (0xA0 <? code)%N; [rewrite off_last, off_qk, off_qm; auto|].
  destruct (_ =? _)%N; auto.
Qed.

Lemma mute_inv : forall K (sel : bool) (P : (nat -> N) -> Prop),
  (forall rd, P rd -> only_mute K rd) -> (if sel then forall k, (k < 4)%N -> K k else K 0%N) ->
  (sel = false -> forall rd, P rd -> no_mapsel rd) ->
  forall rds a, Forall P rds -> arun rds = Some a -> MuteInv K sel a.
Proof.
  intros K sel P HP HK HS.
  assert (CUR : forall a, MuteInv K sel a -> (a_cur a < 4)%N -> K (a_cur a)).
  { intros a (_&_&_&_&_&F) Hk. destruct sel; auto. destruct (F eq_refl) as [-> _]. auto. }
  assert (DN : forall r c b (a : akb), (b = true -> forall k, K k -> mute k r c) ->
    (forall r c, r < 9 -> c < 8 -> a_dn a r c = true -> forall k, K k -> mute k r c) ->
    forall r0 c0, r0 < 9 -> c0 < 8 -> a_dn (accept r c b a) r0 c0 = true -> forall k, K k -> mute k r0 c0).
  { intros r c b a HB HA r0 c0 Hr Hc. cbn [accept a_dn put_dn]. unfold set2.
    destruct (Nat.eqb_spec r0 r), (Nat.eqb_spec c0 c); cbn [andb]; subst; auto. }
  apply ainv.
  - split; [reflexivity|]. split; [constructor|]. split; [reflexivity|]. split; [reflexivity|]. split; [discriminate|]. split; reflexivity.
  - intros a (A&B&C&D&E&F). unfold MuteInv. rewrite send_last, send_cur. destruct (asend_dn a) as [-> _].
    split; auto. unfold asend. rewrite C. destruct (a_qk a) as [|x q] eqn:Q.
    + rewrite Q. split; auto.
    + inv B. cbn [N.ltb N.compare Pos.compare Pos.compare_cont a_qk a_qm a_log put_qk]. auto.
  - intros x a H. exact H.
  - intros rd r c a Hrd HI Hr Hc Hk RD D. pose proof HI as (A1&A2&A3&A4&A5&A6).
    assert (L : last_low a) by (unfold last_low; lia).
    destruct (A5 r c Hr Hc D _ (CUR _ HI Hk) (map_now (a_mod a)) (map_now_lt _)) as [M1 M2].
    destruct (held_form (code_now a r c) a L) as [q [HF|HF]].
    + rewrite HF. exact HI.
    + unfold aheld in HF. unfold MuteInv. destruct (N.eqb_spec (code_now a r c) (a_last a)) as [EQ|NE].
      * rewrite EQ, A1 in HF. unfold aheld. rewrite EQ, A1. rewrite N.eqb_refl. 
        rewrite HF. cbn [a_last a_qk a_qm a_log a_dn a_cur put_rep put_qk]. split; auto. split; auto.
        unfold qput. destruct (_ <? _); auto. apply Forall_app. auto.
      * unfold aheld. destruct (N.eqb_spec (code_now a r c) (a_last a)); [congruence|]. exact HI.
  - intros rd r c a Hrd HI Hr Hc Hk RD D. pose proof HI as (A1&A2&A3&A4&A5&A6).
    destruct (HP _ Hrd r c Hr Hc RD _ (CUR _ HI Hk) (map_now (a_mod a)) (map_now_lt _)) as [M1 M2].
    fold (code_now a r c) in M1, M2.
    destruct (press_mute (code_now a r c) (accept r c true a) A1 A2 M1 M2) as (P1&P2&P3).
    destruct (press_log (code_now a r c) (accept r c true a)) as [l [PL PS]].
    unfold MuteInv. rewrite P1, P3, PL, (proj1 (apress_dn _ _)). split; auto. split; auto. split; auto.
    split; [apply sends_silent_more; auto|]. split; [apply DN; auto; intros _; apply (HP _ Hrd r c Hr Hc RD)|].
    intros SF. destruct (A6 SF) as [F1 F2].
    pose proof (code_now_check _ sel_codes_ok a r c Hk Hr Hc) as SC. unfold sel_codes in SC.
    assert (NS : forall n, decode (code_now a r c) <> AMapsel n).
    { intros n E. rewrite E in SC. pose proof (HS SF _ Hrd c) as X. assert (r = 8) by lia. subst r. rewrite RD in X. specialize (X ltac:(lia)). discriminate. }
    split; [rewrite press_cur by auto; exact F1|]. intros c0 H0. cbn [accept a_dn put_dn]. unfold set2.
    destruct (Nat.eqb_spec 8 r), (Nat.eqb_spec c0 c); cbn [andb]; auto. subst r c0. rewrite (HS SF _ Hrd c H0) in RD. discriminate.
  - intros rd r c a Hrd HI Hr Hc Hk RD D. pose proof HI as (A1&A2&A3&A4&A5&A6).
    destruct (release_mute (code_now a r c) (accept r c false a) A1) as (P1&P2&P3).
    destruct (release_log (code_now a r c) (accept r c false a)) as [l [PL PS]].
    unfold MuteInv. rewrite P1, P2, P3, PL, (proj1 (arelease_dn _ _)). split; auto. split; auto. split; auto.
    split; [apply sends_silent_more; auto|]. split; [apply DN; auto; discriminate|].
    intros SF. destruct (A6 SF) as [F1 F2].
    pose proof (code_now_check _ sel_codes_ok a r c Hk Hr Hc) as SC. unfold sel_codes in SC.
    assert (NS : forall n, decode (code_now a r c) <> AMapsel n).
    { intros n E. rewrite E in SC. assert (r = 8) by lia. subst r. rewrite (F2 c) in D by lia. discriminate. }
    split; [rewrite release_cur by auto; exact F1|]. intros c0 H0. cbn [accept a_dn put_dn]. unfold set2.
    destruct ((8 =? r) && (c0 =? c)); auto.
Qed.

(** ** C39 *)
(** No code in any map of keyboard [k]. *)
Definition unassigned (k : N) (r c : nat) : Prop := forall m, m < 4 -> code_at k m r c = 0xA0%N.

Lemma unassigned_mute : forall k r c, unassigned k r c -> mute k r c.
Proof. intros k r c H m Hm. rewrite (H m Hm). split; [lia|reflexivity]. Qed.

(** Unassigned keys alone never make the host receive anything (keyboard 0).
    Missing against the wanted claim: together with other keys they do have an
    effect, see [C39_unassigned_inert_refuted]. *)
Theorem C39_unassigned_alone_partial : forall rds s,
  Forall (fun rd => no_mapsel rd /\ forall r c, r < 9 -> c < 8 -> reading rd r c = true -> unassigned 0 r c) rds ->
  run rds = Ok s -> sent s = [] /\ msg_queue s = [].
Proof.
  intros rds s HF H. destruct (reach _ _ H) as [a [A RL]].
  assert (I : MuteInv (eq 0%N) false a).
  { revert HF A. apply mute_inv.
  - intros rd [_ HR] r c Hr Hc RD k <-. apply unassigned_mute. auto.
  - reflexivity.
  - intros _ rd [HN _]. exact HN. }
  destruct I as (I1&I2&I3&I4&_). rewrite (sent_ok _ _ RL), (msg_queue_ok _ _ RL). auto.
Qed.
Print Assumptions C39_unassigned_alone_partial.

Example C39_alone_example :
  forallb (fun m => code_at 0 m 0 0 =? 0xA0)%N (seq 0 4) && forallb (fun m => code_at 0 m 0 3 =? 0xA0)%N (seq 0 4) = true /\
  obs (fun s => (down s 0 0, down s 0 3, key_queue s, sent s)) (run (hold 10 [(0, 0); (0, 3)])) = Some (true, true, [160; 160]%N, []).
Proof. vm_compute. auto. Qed.

(** Seen from any state, the step of a key without a code prints nothing and
    offers at most its own code, which is never sent (C36). *)
Theorem C39_unassigned_step_partial : forall rd r c s s1 ks ms, key_event rd r c s s1 ks ms ->
  key_code s r c = 0xA0%N -> ms = [] /\ Forall (fun x => x = 0xA0%N) ks.
Proof.
  intros rd r c s s1 ks ms KE E. rewrite (ke_msgs _ _ _ _ _ _ _ KE), (ke_keys _ _ _ _ _ _ _ KE), E.
  split; [destruct (_ && _); reflexivity|]. destruct (_ && _ && _); auto. destruct (_ && _ && _ && _); auto.
Qed.
Print Assumptions C39_unassigned_step_partial.

(** Two histories that differ only at an unassigned key: the autorepeat of the
    key held before stops. *)
Theorem C39_unassigned_inert_refuted : exists rds1 rds2 s1 s2,
  run rds1 = Ok s1 /\ run rds2 = Ok s2 /\ length rds1 = length rds2 /\ unassigned 0 0 0 /\
  Forall no_mapsel rds1 /\ Forall no_mapsel rds2 /\
  (forall i rd1 rd2 r c, nth_error rds1 i = Some rd1 -> nth_error rds2 i = Some rd2 -> ~ (r = 0 /\ c = 0) -> c < 8 ->
    reading rd1 r c = reading rd2 r c) /\
  sent s1 <> sent s2.
Proof.
  set (r1 := hold 100 [(1, 1)] ++ hold 500 [(1, 1)]). set (r2 := hold 100 [(1, 1)] ++ hold 500 [(1, 1); (0, 0)]).
  assert (X1 : obs sent (run r1) = Some [112; 112]%N) by (vm_compute; reflexivity).
  assert (X2 : obs sent (run r2) = Some [112]%N) by (vm_compute; reflexivity).
  apply obs_some in X1. destruct X1 as [s1 [E1 X1]]. apply obs_some in X2. destruct X2 as [s2 [E2 X2]].
  exists r1, r2, s1, s2. split; auto. split; auto. split; [reflexivity|].
  split. { intros m Hm. do 4 (destruct m as [|m]; [reflexivity|]). lia. }
  assert (NM : forall l, (forall p, In p l -> fst p < 8) -> no_mapsel (matrix l)).
  { intros l Hl c Hc. unfold reading. replace (matrix l 8) with 0%N; [apply N.bits_0|].
    unfold matrix. induction l as [|p l IH]; auto. cbn [fold_right]. rewrite <- IH by (intros q Hq; apply Hl; right; auto).
    pose proof (Hl p (or_introl eq_refl)). destruct (Nat.eqb_spec (fst p) 8); [lia|]. auto. }
  assert (FH : forall n l, (forall p, In p l -> fst p < 8) -> Forall no_mapsel (hold n l)).
  { intros n l Hl. unfold hold. apply Forall_forall. intros x Hx. apply repeat_spec in Hx. subst x. auto. }
  assert (B1 : forall p, In p [(1, 1)] -> fst p < 8) by (intros p [<- | []]; cbn; lia).
  assert (B2 : forall p, In p [(1, 1); (0, 0)] -> fst p < 8) by (intros p [<- | [<- | []]]; cbn; lia).
  split; [apply Forall_app; split; apply FH; auto|]. split; [apply Forall_app; split; apply FH; auto|].
  split; [|rewrite X1, X2; discriminate].
  intros i rd1 rd2 r c H1 H2 Hne Hc.
  assert (EQ : reading (matrix [(1, 1)]) r c = reading (matrix [(1, 1); (0, 0)]) r c).
  { unfold reading, matrix. cbn [fold_right fst snd]. destruct (Nat.eqb_spec 1 r) as [E|E], (Nat.eqb_spec 0 r) as [F|F]; auto; [lia|].
    change (N.setbit 0 (N.of_nat 0)) with 1%N. subst r. destruct c as [|c]; [exfalso; auto|].
    rewrite N.bits_0. symmetry. apply N.bits_above_log2. cbn. lia. }
  destruct (Nat.ltb_spec i 100).
  - unfold r1, r2 in *. rewrite nth_error_app1 in H1, H2 by (unfold hold; rewrite repeat_length; lia). congruence.
  - unfold r1, r2 in *. rewrite nth_error_app2 in H1, H2 by (unfold hold; rewrite repeat_length; lia).
    unfold hold in H1, H2. apply nth_error_In, repeat_spec in H1. apply nth_error_In, repeat_spec in H2. subst. auto.
Qed.
Print Assumptions C39_unassigned_inert_refuted.

(** ** C40 *)
Definition dip_codes (k : N) (m r c : nat) (code : N) : bool :=
  negb (r =? 8) || (c =? 4) || ((0xA0 <? code)%N && match prints k code with [] => true | _ => false end).
Lemma dip_codes_ok : all_codes dip_codes = true.
Proof. vm_compute. reflexivity. Qed.
Lemma dip_mute : forall k c, (k < 4)%N -> c < 8 -> c <> 4 -> mute k 8 c.
Proof.
  intros k c Hk Hc Hn m Hm. pose proof (codes_check _ dip_codes_ok k m 8 c Hk Hm ltac:(lia) Hc) as X.
  unfold dip_codes in X. cbn [Nat.eqb negb orb] in X. replace (c =? 4) with false in X by lia. cbn [orb] in X.
  destruct (prints k (code_at k m 8 c)); [|rewrite andb_false_r in X; discriminate]. split; auto. lia.
Qed.

(** Whatever the DIP switches other than number 5 (row 8, column 4) do, the host
    receives nothing from them.  Missing: switch 5, see below. *)
Theorem C40_switches_alone_partial : forall rds s,
  Forall (fun rd => forall r c, r < 9 -> c < 8 -> reading rd r c = true -> r = 8 /\ c <> 4) rds ->
  run rds = Ok s -> sent s = [] /\ msg_queue s = [].
Proof.
  intros rds s HF H. destruct (reach _ _ H) as [a [A RL]].
  assert (I : MuteInv (fun k => (k < 4)%N) true a).
  { revert HF A. apply mute_inv.
  - intros rd HR r c Hr Hc RD k Hk. destruct (HR r c Hr Hc RD) as [-> Hn]. apply dip_mute; auto.
  - auto.
  - discriminate. }
  destruct I as (I1&I2&I3&I4&_). rewrite (sent_ok _ _ RL), (msg_queue_ok _ _ RL). auto.
Qed.
Print Assumptions C40_switches_alone_partial.

(** In any context: in every scan, the steps of these switches offer neither
    codes nor message characters. *)
Theorem C40_switch_step_partial : forall rd c s s1 ks ms, key_event rd 8 c s s1 ks ms ->
  (k_cur s < 4)%N -> (k_last s <= 0xA0)%N -> c < 8 -> c <> 4 -> ks = [] /\ ms = [].
Proof.
  intros rd c s s1 ks ms KE Hk HL Hc Hn. 
  assert (HM : map_in_force s < 4) by (unfold map_in_force; destruct (ctrl_on s), (shift_on s), (caps_on s); lia).
  pose proof (codes_check _ dip_codes_ok _ _ 8 c Hk HM ltac:(lia) Hc) as X.
  unfold dip_codes in X. cbn [Nat.eqb negb orb] in X. replace (c =? 4) with false in X by lia. cbn [orb] in X. fold (key_code s 8 c) in X.
  rewrite (ke_keys _ _ _ _ _ _ _ KE), (ke_msgs _ _ _ _ _ _ _ KE).
  destruct (prints (k_cur s) (key_code s 8 c)); [|rewrite andb_false_r in X; discriminate].
  replace (key_code s 8 c <=? 0xA0)%N with false by lia. replace (key_code s 8 c =? k_last s)%N with false by lia.
  rewrite !andb_false_r. cbn [andb]. clear X. split; auto. destruct (negb (down s 8 c) && down s1 8 c); auto.
Qed.
Print Assumptions C40_switch_step_partial.

(** The side conditions hold throughout: the code that repeats is never an action. *)
Theorem C40_last_code_partial : forall rds s, run rds = Ok s -> (k_last s <= 0xA0)%N.
Proof. intros rds s H. destruct (reach _ _ H) as [a [A RL]]. rewrite (rl_last _ _ RL). exact (run_low _ _ A). Qed.
Print Assumptions C40_last_code_partial.

(** Closing switch 5 sends NUL. *)
Theorem C40_switches_never_type_refuted : exists rds s, run rds = Ok s /\
  Forall (fun rd => forall r c, r < 9 -> c < 8 -> reading rd r c = true -> r = 8) rds /\ sent s = [0%N].
Proof.
  assert (X : obs sent (run (hold 11 [(8, 4)])) = Some [0%N]) by (vm_compute; reflexivity).
  apply obs_some in X. destruct X as [s [E X]]. exists (hold 11 [(8, 4)]), s. split; auto. split; auto.
  apply Forall_forall. intros x Hx. unfold hold in Hx. apply repeat_spec in Hx. subst x. intros r c Hr Hc RD.
  destruct (Nat.eq_dec r 8); auto. unfold reading, matrix in RD. cbn [fold_right fst snd] in RD.
  replace (8 =? r) with false in RD by lia. rewrite N.bits_0 in RD. discriminate.
Qed.
Print Assumptions C40_switches_never_type_refuted.

Example C40_example : obs (fun s => (k_cur s, down s 8 0, down s 8 1, down s 8 7, sent s))
  (run (hold 10 [(8, 0)] ++ hold 10 [(8, 0); (8, 1); (8, 7)])) = Some (3%N, true, true, true, []).
Proof. vm_compute. reflexivity. Qed.
