(** Which characters a firmware of any keymaps can send at all (C143). *)
From Coq Require Import List NArith ZArith Arith Bool Lia.
From Coq Require Import ZifyBool ZifyNat ZifyN.
From Verif Require Import Base Lib Buffer Repeat Devices Modifiers Hook KeymapData Asdf KeySpec Obs PropDebounce
     Custom CustomSpec CustomRef PropCustom PropEvents PropFlow PropExact PropSession PropAllCalls PropLamps PropNoLoss PropOnce PropRate PropLegends.
Import ListNotations.

(** ** Specification *)
Section Spec.
Variable R C : nat.
Variable kbs : N -> option (list setup_cmd).
(** Codes that change the modes or the keyboard when pressed or released. *)
Definition modal (x : N) : bool :=
  match decode x with AShift | AShiftlockOn | AShiftlockToggle | ACaps | ACtrl | AMapsel _ => true | _ => false end.
Definition modal_key (r c : nat) : Prop := forall e, kbs (e_kb e) <> None -> modal (code_in kbs e r c) = true.
(** Every key changes modes in all tables, or in none. *)
Definition steady_roles : Prop := forall r c, r < R -> c < C ->
  modal_key r c \/ forall e, kbs (e_kb e) <> None -> modal (code_in kbs e r c) = false.
(** The modes that pressing and releasing such keys one after the other leads to;
    the first argument tells which of these keys are held. *)
Inductive reach : (nat -> nat -> bool) -> setting -> Prop :=
| reach_start : reach (fun _ _ => false) (at_start kbs)
| reach_mode : forall H e r c, reach H e -> r < R -> c < C -> modal_key r c ->
    reach (set2 H r c (negb (H r c))) (after_event kbs e (r, c, negb (H r c))).
(** The characters on the keys in modes [e]. *)
Definition on_keys (e : setting) (x : N) : Prop := (x < 0xA0)%N /\ exists r c, r < R /\ c < C /\ code_in kbs e r c = x.
End Spec.

(** ** Proofs *)
(** A scan that shows the keys of [H]. *)
Definition showing (C : nat) (H : nat -> nat -> bool) (r : nat) : N :=
  fold_right (fun c acc => if H r c then N.setbit acc (N.of_nat c) else acc) 0%N (seq 0 C).
Lemma showing_reads : forall R C H, reads R C H (showing C H).
Proof.
  intros R C H r c _ Hc. unfold reading, showing.
  assert (X : forall l, N.testbit (fold_right (fun c acc => if H r c then N.setbit acc (N.of_nat c) else acc) 0%N l) (N.of_nat c) = existsb (Nat.eqb c) l && H r c).
  { intros l. induction l as [|k l IH]; [rewrite N.bits_0; reflexivity|]. cbn [fold_right existsb]. destruct (Nat.eqb_spec c k) as [<-|NE].
    - cbn [orb andb]. destruct (H r c) eqn:E; [apply N.setbit_eq|]. rewrite IH. apply andb_false_r.
    - cbn [orb]. destruct (H r k); [|exact IH]. rewrite N.setbit_neq by lia. exact IH. }
  rewrite X. assert (Y : existsb (Nat.eqb c) (seq 0 C) = true) by (apply existsb_exists; exists c; split; [apply in_seq; lia|apply Nat.eqb_refl]). rewrite Y. reflexivity.
Qed.
Lemma repeat_reads : forall R C H n, Forall (reads R C H) (repeat (showing C H) n).
Proof. intros R C H n. apply Forall_forall. intros rd I. apply repeat_spec in I. subst rd. apply showing_reads. Qed.

Lemma NoDup_app_intro : forall (A : Type) (l l' : list A), NoDup l -> NoDup l' -> (forall a, In a l -> ~ In a l') -> NoDup (l ++ l').
Proof.
  intros A l l' N1 N2 H. induction N1 as [|a l NI N1 IH]; [exact N2|]. cbn [app]. constructor.
  - rewrite in_app_iff. intros [X|X]; [contradiction|]. exact (H a (or_introl eq_refl) X).
  - apply IH. intros b I. apply H. right. exact I.
Qed.
(** Transitions alternate. *)
Fixpoint alternate (D : nat -> nat -> bool) (l : list (nat * nat * bool)) : Prop :=
  match l with [] => True | (r, c, b) :: t => D r c = negb b /\ alternate (set2 D r c b) t end.
Lemma alternate_ext : forall l D D', (forall r c, D r c = D' r c) -> alternate D l -> alternate D' l.
Proof.
  intros l. induction l as [|[[r c] b] l IH]; intros D D' E A; [exact I|]. destruct A as [A1 A2]. split; [rewrite <- E; exact A1|].
  apply (IH (set2 D r c b)); [|exact A2]. intros r' c'. unfold set2. destruct ((r' =? r) && (c' =? c)); [reflexivity|apply E].
Qed.
Definition leads (D : nat -> nat -> bool) (l : list (nat * nat * bool)) : nat -> nat -> bool := fold_left (fun D v => set2 D (fst (fst v)) (snd (fst v)) (snd v)) l D.
Lemma alternate_app : forall l l' D, alternate D (l ++ l') <-> alternate D l /\ alternate (leads D l) l'.
Proof.
  intros l. induction l as [|[[r c] b] l IH]; intros l' D; cbn [app alternate leads fold_left fst snd]; [tauto|]. rewrite IH. unfold leads. tauto.
Qed.
Lemma events_pairs : forall R C pre rd, scan_events R C pre rd = flat_map (fun p => PropEvents.key_event pre rd (fst p) (snd p)) (list_prod (seq 0 R) (seq 0 C)).
Proof.
  intros R C pre rd. unfold scan_events. generalize (seq 0 R). intros rs. induction rs as [|r rs IH]; [reflexivity|]. cbn [flat_map list_prod]. rewrite flat_map_app, <- IH. f_equal.
  generalize (seq 0 C). intros cs. induction cs as [|c cs IHc]; [reflexivity|]. cbn [flat_map map fst snd]. rewrite <- IHc. reflexivity.
Qed.
Lemma scan_alternates : forall pre rd ps D, NoDup ps -> (forall r c, In (r, c) ps -> D r c = accepted_after pre r c) ->
  alternate D (flat_map (fun p => PropEvents.key_event pre rd (fst p) (snd p)) ps) /\
  (forall r c, In (r, c) ps -> leads D (flat_map (fun p => PropEvents.key_event pre rd (fst p) (snd p)) ps) r c = accepted_after (pre ++ [rd]) r c) /\
  (forall r c, ~ In (r, c) ps -> leads D (flat_map (fun p => PropEvents.key_event pre rd (fst p) (snd p)) ps) r c = D r c).
Proof.
  intros pre rd ps. induction ps as [|[r0 c0] ps IH]; intros D ND HD; [split; [exact I|]; split; [intros r c []|reflexivity]|]. apply NoDup_cons_iff in ND as [NI ND]. cbn [flat_map fst snd].
  assert (H0 := HD r0 c0 (or_introl eq_refl)).
  set (D1 := leads D (PropEvents.key_event pre rd r0 c0)).
  assert (K : alternate D (PropEvents.key_event pre rd r0 c0) /\ D1 r0 c0 = accepted_after (pre ++ [rd]) r0 c0 /\ forall r c, (r, c) <> (r0, c0) -> D1 r c = D r c).
  { unfold D1, PropEvents.key_event. cbv zeta. destruct (Bool.eqb (accepted_after pre r0 c0) (accepted_after (pre ++ [rd]) r0 c0)) eqn:EB.
    - apply eqb_prop in EB. cbn [leads fold_left]. split; [exact I|]. split; [congruence|reflexivity].
    - apply eqb_false_iff in EB. cbn [leads fold_left fst snd alternate]. split; [split; [|exact I]; rewrite H0; destruct (accepted_after pre r0 c0), (accepted_after (pre ++ [rd]) r0 c0); try reflexivity; congruence|].
      split; [unfold set2; rewrite !Nat.eqb_refl; reflexivity|]. intros r c NE. unfold set2. destruct (Nat.eqb_spec r r0), (Nat.eqb_spec c c0); cbn [andb]; try reflexivity. subst. congruence. }
  destruct K as (K1&K2&K3).
  assert (HD1 : forall r c, In (r, c) ps -> D1 r c = accepted_after pre r c).
  { intros r c I. rewrite K3; [apply HD; right; exact I|]. intros X. injection X as -> ->. contradiction. }
  destruct (IH D1 ND HD1) as (A1&A2&A3).
  assert (L : forall a b, leads D (a ++ b) = leads (leads D a) b) by (intros a b; unfold leads; apply fold_left_app).
  rewrite L. fold D1. split; [apply alternate_app; split; assumption|]. split.
  - intros r c [X|X]; [|apply A2; exact X]. injection X as <- <-. rewrite A3 by exact NI. exact K2.
  - intros r c X. rewrite A3 by (intros Y; apply X; right; exact Y). apply K3. intros Y. apply X. left. congruence.
Qed.
Lemma transitions_alternate : forall R C rds pre D, (forall r c, r < R -> c < C -> D r c = accepted_after pre r c) -> alternate D (transitions R C pre rds).
Proof.
  intros R C rds. induction rds as [|rd rds IH]; intros pre D HD; [exact I|]. cbn [transitions]. rewrite events_pairs. apply alternate_app.
  assert (P : forall r c, In (r, c) (list_prod (seq 0 R) (seq 0 C)) <-> r < R /\ c < C) by (intros r c; rewrite in_prod_iff, !in_seq; lia).
  assert (ND : NoDup (list_prod (seq 0 R) (seq 0 C))).
  { pose proof (seq_NoDup R 0) as N1. revert N1. generalize (seq 0 R). intros rs. induction rs as [|r rs IHr]; intros N1; [constructor|]. apply NoDup_cons_iff in N1 as [NI N1]. cbn [list_prod].
    apply NoDup_app_intro.
    - apply FinFun.Injective_map_NoDup; [intros a b X; congruence|apply seq_NoDup].
    - apply IHr. exact N1.
    - intros [a b] I1 I2. apply in_map_iff in I1 as [z [E _]]. injection E as <- _. apply in_prod_iff in I2 as [I2 _]. contradiction. }
  destruct (scan_alternates pre rd _ D ND) as (A1&A2&_); [intros r c I; apply P in I as [Hr Hc]; apply HD; assumption|].
  split; [exact A1|]. apply IH. intros r c Hr Hc. apply A2. apply P. split; assumption.
Qed.

Section Reach.
Variable R C : nat.
Variable kbs : N -> option (list setup_cmd).
Hypothesis sound : sound_firmware R kbs.
Lemma modal_high : forall x, modal x = true -> (0xA0 < x)%N /\ plain_code x.
Proof.
  intros x M. split.
  - destruct (N.ltb_spec 0xA0 x) as [L|L]; [exact L|]. exfalso. unfold modal in M. destruct (low_code x L) as [E|E]; rewrite E in M; discriminate M.
  - unfold plain_code. unfold modal in M. destruct (decode x); try discriminate M; exact I.
Qed.
Lemma modal_mode : forall r c, modal_key kbs r c -> mode_key kbs r c.
Proof. intros r c M e K. exact (proj1 (modal_high _ (M e K))). Qed.
Lemma reach_known : forall H e, reach R C kbs H e -> kbs (e_kb e) <> None.
Proof. induction 1 as [|H e r c HE IH Hr Hc M]; [exact (start_known kbs R sound)|]. apply event_known. exact IH. Qed.
Lemma reach_held : forall H e, reach R C kbs H e -> forall r c, H r c = true -> modal_key kbs r c.
Proof.
  induction 1 as [|H e r0 c0 HE IH Hr Hc M]; intros r c X; [discriminate X|]. unfold set2 in X. destruct (Nat.eqb_spec r r0) as [E1|E1]; destruct (Nat.eqb_spec c c0) as [E2|E2]; cbn [andb] in X; try (apply IH; exact X). rewrite E1, E2. exact M.
Qed.
Lemma reach_session : forall H e, reach R C kbs H e -> exists rds, session R C kbs rds H e [].
Proof.
  induction 1 as [|H e r c HE [rds IH] Hr Hc M]; [exists []; constructor|].
  exists (rds ++ repeat (showing C (set2 H r c (negb (H r c)))) 10). apply session_mode; try assumption.
  - apply modal_mode. exact M.
  - apply modal_high. apply M. exact (reach_known H e HE).
  - apply repeat_reads.
  - apply repeat_length.
Qed.
Lemma text_session : forall H e, reach R C kbs H e -> forall text, Forall (on_keys R C kbs e) text -> forall rds out, session R C kbs rds H e out ->
  exists rds', session R C kbs rds' H e (out ++ text).
Proof.
  intros H e HE text T. induction T as [|x text [HX (r&c&Hr&Hc&EX)] T IH]; intros rds out S; [exists rds; rewrite app_nil_r; exact S|].
  assert (F : H r c = false).
  { destruct (H r c) eqn:E; [|reflexivity]. exfalso. pose proof (modal_mode r c (reach_held H e HE r c E) e (reach_known H e HE)) as Y. rewrite EX in Y. lia. }
  assert (S' : session R C kbs (rds ++ repeat (showing C (set2 H r c true)) 10 ++ repeat (showing C H) 10) H e (out ++ repeat (code_in kbs e r c) (times (length (repeat (showing C (set2 H r c true)) 10))))).
  { apply session_stroke; try assumption; [rewrite EX; exact HX|apply repeat_reads|rewrite repeat_length; apply le_n|apply repeat_reads|apply repeat_length]. }
  rewrite repeat_length, EX in S'. change (repeat x (times 10)) with [x] in S'. destruct (IH _ _ S') as [rds' S2]. exists rds'. rewrite <- app_assoc in S2. exact S2.
Qed.
Lemma still_event : forall e r c b, modal (code_in kbs e r c) = false -> after_event kbs e (r, c, b) = e.
Proof.
  intros e r c b M. unfold after_event. cbv zeta. unfold modal in M. unfold after_press, after_release. destruct b; destruct (decode (code_in kbs e r c)); try reflexivity; discriminate M.
Qed.
Hypothesis steady : steady_roles R C kbs.
Lemma typed_reach : forall l D H e, reach R C kbs H e -> (forall r c, modal_key kbs r c -> D r c = H r c) -> alternate D l ->
  (forall r c b, In (r, c, b) l -> r < R /\ c < C) -> forall x, In x (typed kbs e l) -> (x < 0xA0)%N -> exists H' e', reach R C kbs H' e' /\ on_keys R C kbs e' x.
Proof.
  intros l. induction l as [|[[r c] b] l IH]; intros D H e HE HD A HI x IX LX; [contradiction IX|]. cbn [typed] in IX. cbv zeta in IX. destruct A as [A1 A2].
  destruct (HI r c b (or_introl eq_refl)) as [Hr Hc]. apply in_app_or in IX as [IX|IX].
  - destruct (b && (code_in kbs e r c <=? 0xA0)%N); [|contradiction IX]. destruct IX as [<-|[]]. exists H, e. split; [exact HE|]. split; [exact LX|]. exists r, c. auto.
  - assert (HI' : forall r c b, In (r, c, b) l -> r < R /\ c < C) by (intros r' c' b' X; apply (HI r' c' b'); right; exact X).
    destruct (steady r c Hr Hc) as [M|M].
    + assert (EB : b = negb (H r c)) by (rewrite <- (HD r c M), A1, negb_involutive; reflexivity).
      apply (IH (set2 D r c b) (set2 H r c (negb (H r c))) (after_event kbs e (r, c, negb (H r c)))); try assumption.
      * apply reach_mode; assumption.
      * intros r' c' M'. rewrite <- EB. unfold set2. destruct ((r' =? r) && (c' =? c)); [reflexivity|apply HD; exact M'].
      * rewrite <- EB. exact IX.
    + rewrite (still_event e r c b (M e (reach_known H e HE))) in IX. apply (IH (set2 D r c b) H e HE); try assumption.
      intros r' c' M'. unfold set2. destruct (Nat.eqb_spec r' r) as [E1|E1]; destruct (Nat.eqb_spec c' c) as [E2|E2]; cbn [andb]; try (apply HD; exact M').
      exfalso. rewrite E1, E2 in M'. pose proof (M' e (reach_known H e HE)) as Y. rewrite (M e (reach_known H e HE)) in Y. discriminate Y.
Qed.
End Reach.

(** ** Theorems *)
(** In modes that can be reached, every text of characters on the keys can be
    typed. *)
Theorem C143_texts : forall R C kbs H e text, sound_firmware R kbs -> same_size R C kbs -> scan_hook_free kbs ->
  reach R C kbs H e -> Forall (on_keys R C kbs e) text ->
  exists rds s, c_run kbs rds = Ok s /\ sent s = text.
Proof.
  intros R C kbs H e text HS HZ HQ HE T. destruct (reach_session R C kbs HS H e HE) as [rds S].
  destruct (text_session R C kbs HS H e HE text T rds [] S) as [rds' S']. destruct (C98_any_keymaps_safe R kbs rds' HS) as [s ES].
  exists rds', s. split; [exact ES|]. exact (C105_session R C kbs rds' H e text s HS HZ HQ S' ES).
Qed.
Print Assumptions C143_texts.

(** A character that is in no message can be sent if and only if it is on a key
    in modes that can be reached. *)
Theorem C143_exactly : forall R C kbs x, sound_firmware R kbs -> same_size R C kbs -> scan_hook_free kbs -> steady_roles R C kbs ->
  ~ message_char kbs x ->
  ((exists rds s, c_run kbs rds = Ok s /\ In x (sent s)) <-> exists H e, reach R C kbs H e /\ on_keys R C kbs e x).
Proof.
  intros R C kbs x HS HZ HQ HR NM. split.
  - intros (rds&s&ES&IX). destruct (C102_sent R C kbs rds s HS HZ ES) as (k&q&ms&F&_&SH&MS).
    destruct (shuffle_in _ _ _ SH x IX) as [IK|IM]; [|exfalso; apply NM; exact (proj1 (Forall_forall _ _) MS x IM)].
    unfold visible in IK. apply filter_In in IK as [IK LX]. apply N.ltb_lt in LX.
    destruct (flow_in _ _ _ F x) as [E|IT]; [apply in_or_app; left; exact IK|exfalso; clear -E LX; lia|].
    apply (typed_reach R C kbs HS HR (transitions R C [] rds) (fun _ _ => false) (fun _ _ => false) (at_start kbs)); try assumption.
    + constructor.
    + reflexivity.
    + apply transitions_alternate. reflexivity.
    + intros r c b X. exact (transitions_in R C rds [] r c b X).
  - intros (H&e&HE&HO). destruct (C143_texts R C kbs H e [x] HS HZ HQ HE) as (rds&s&ES&E); [constructor; [exact HO|constructor]|].
    exists rds, s. split; [exact ES|]. rewrite E. left. reflexivity.
Qed.
Print Assumptions C143_exactly.

(** The two keyboards of C104: on the second one, "!" is typed with SHIFT held;
    "z" (122) can never be sent. *)
Lemma desk_codes : forall e r c, r < 1 -> c < 8 -> desk (e_kb e) <> None ->
  modal (code_in desk e r c) = nth c [false; false; true; true; false; false; true; false] false /\ code_in desk e r c <> 122%N.
Proof.
  intros [k b1 b2 b3 b4] r c Hr Hc K. cbn [e_kb] in K. assert (r = 0) by lia. subst r.
  assert (HK : k = 0%N \/ k = 1%N) by (unfold desk in K; destruct (N.eqb_spec k 0); [auto|]; destruct (N.eqb_spec k 1); [auto|congruence]). clear K.
  do 8 (destruct c as [|c]; [destruct HK as [-> | ->]; destruct b1, b2, b3, b4; (split; [vm_compute; reflexivity|vm_compute; discriminate])|]). lia.
Qed.
Lemma desk_steady : steady_roles 1 8 desk.
Proof.
  intros r c Hr Hc. destruct (nth c [false; false; true; true; false; false; true; false] false) eqn:E; [left|right]; intros e K; rewrite (proj1 (desk_codes e r c Hr Hc K)); exact E.
Qed.
Lemma desk_messages : forall x, message_char desk x -> In x [72; 13; 10]%N.
Proof.
  intros x (i&cs&id&m&l&E&IH&SH&IX). unfold desk in E. destruct (i =? 0)%N; [|destruct (i =? 1)%N; [|discriminate E]]; injection E as <-; cbn [In] in IH; intuition try discriminate.
  match goal with X : SHook _ _ = SHook _ _ |- _ => injection X as <- <- end. apply shows_format in SH. vm_compute in SH. injection SH as <-. exact IX.
Qed.
Example C143_example :
  (exists rds s, c_run desk rds = Ok s /\ sent s = [33; 34; 33]%N) /\
  (forall rds s, c_run desk rds = Ok s -> ~ In 122%N (sent s)).
Proof.
  destruct desk_sound as (HS&HZ&HQ). assert (M : forall c, c < 8 -> nth c [false; false; true; true; false; false; true; false] false = true -> modal_key desk 0 c).
  { intros c Hc E e K. rewrite (proj1 (desk_codes e 0 c Nat.lt_0_1 Hc K)). exact E. }
  split.
  - pose proof (reach_mode 1 8 desk _ _ 0 6 (reach_start 1 8 desk) ltac:(lia) ltac:(lia) (M 6 ltac:(lia) eq_refl)) as R1.
    pose proof (reach_mode 1 8 desk _ _ 0 2 R1 ltac:(lia) ltac:(lia) (M 2 ltac:(lia) eq_refl)) as R2.
    apply (C143_texts 1 8 desk _ (after_event desk (after_event desk (at_start desk) (0, 6, true)) (0, 2, true)) _ HS HZ HQ R2).
    assert (T : forall c x, c < 8 -> code_in desk (after_event desk (after_event desk (at_start desk) (0, 6, true)) (0, 2, true)) 0 c = x -> (x < 0xA0)%N ->
        on_keys 1 8 desk (after_event desk (after_event desk (at_start desk) (0, 6, true)) (0, 2, true)) x).
    { intros c x Hc E L. split; [exact L|]. exists 0, c. auto. }
    assert (T0 := T 0 33%N ltac:(lia) ltac:(vm_compute; reflexivity) ltac:(lia)). assert (T1 := T 1 34%N ltac:(lia) ltac:(vm_compute; reflexivity) ltac:(lia)).
    exact (Forall_cons _ T0 (Forall_cons _ T1 (Forall_cons _ T0 (Forall_nil _)))).
  - intros rds s ES IX. destruct (proj1 (C143_exactly 1 8 desk 122 HS HZ HQ desk_steady (fun X => ltac:(apply desk_messages in X; cbn [In] in X; intuition discriminate)))) as (H&e&HE&L&r&c&Hr&Hc&E).
    + exists rds, s. split; assumption.
    + exact (proj2 (desk_codes e r c Hr Hc (reach_known 1 8 desk HS H e HE)) E).
Qed.

(** A key that is SHIFT in one table and a character in another: the character
    is sent, but no key that changes modes in all tables leads to it. *)
Definition fickle (i : N) : option (list setup_cmd) :=
  if (i =? 0)%N then
    Some [SAddMap [0xA1; 97]%N 0 1 2; SAddMap [88; 65]%N 1 1 2; SAddMap [0xA1; 97]%N 2 1 2; SAddMap [0xA1; 97]%N 3 1 2]
  else None.
Theorem C143_unsteady_refuted :
  ~ (forall R C kbs x, sound_firmware R kbs -> same_size R C kbs -> scan_hook_free kbs -> ~ message_char kbs x ->
     ((exists rds s, c_run kbs rds = Ok s /\ In x (sent s)) <-> exists H e, reach R C kbs H e /\ on_keys R C kbs e x)).
Proof.
  intros X. destruct (proj1 (X 1 2 fickle 88%N ltac:(split; [eexists; reflexivity|intros i cs E; unfold fickle in E; destruct (N.eqb_spec i 0); inv E; split; [lia|]; apply (sound_b_ok 1 1 2); vm_compute; reflexivity])
    ltac:(intros i cs mi E Hm; unfold fickle in E; destruct (i =? 0)%N; inv E; do 4 (destruct mi as [|mi]; [eexists; vm_compute; reflexivity|]); lia)
    ltac:(intros i cs f E HI; unfold fickle in E; destruct (i =? 0)%N; inv E; cbn in HI; intuition discriminate)
    ltac:(intros (i&cs&id&m&l&E&IH&_); unfold fickle in E; destruct (i =? 0)%N; inv E; cbn in IH; intuition discriminate))) as (H&e&HE&L&r&c&Hr&Hc&E).
  - destruct (c_run fickle (hold 10 [(0, 0)] ++ hold 10 [] ++ hold 10 [(0, 0)] ++ hold 2 [])) as [s|u] eqn:ES; [|vm_compute in ES; discriminate ES].
    exists (hold 10 [(0, 0)] ++ hold 10 [] ++ hold 10 [(0, 0)] ++ hold 2 []), s. split; [exact ES|].
    assert (Y : obs sent (c_run fickle (hold 10 [(0, 0)] ++ hold 10 [] ++ hold 10 [(0, 0)] ++ hold 2 [])) = Some [88]%N) by (vm_compute; reflexivity).
    rewrite ES in Y. cbn [obs] in Y. injection Y as Y. rewrite Y. left. reflexivity.
  - assert (Z : forall H e, reach 1 2 fickle H e -> e = at_start fickle).
    { clear. induction 1 as [|H e r c HE IH Hr Hc M]; [reflexivity|]. exfalso. assert (r = 0) by lia. subst r.
      assert (K : forall e0, fickle (e_kb e0) <> None -> modal (code_in fickle e0 0 c) = true) by exact M. clear M.
      pose proof (K (mkSetting 0 true false false false) ltac:(vm_compute; discriminate)) as K1. destruct c as [|[|c]]; [vm_compute in K1; discriminate K1|vm_compute in K1; discriminate K1|lia]. }
    rewrite (Z H e HE) in E. assert (r = 0) by lia. subst r. destruct c as [|[|c]]; [vm_compute in E; discriminate E|vm_compute in E; discriminate E|lia].
Qed.
Print Assumptions C143_unsteady_refuted.
