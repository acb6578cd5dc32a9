(** From fingers to what a host latches, in continuous time, under any keymaps
    (C113). *)
From Coq Require Import List NArith ZArith Arith Bool Lia.
From Coq Require Import ZifyBool ZifyNat ZifyN.
From Verif Require Import Base Lib Buffer Repeat Devices Modifiers Hook KeymapData Asdf KeySpec Obs PropDebounce
     Custom CustomSpec CustomRef PropCustom PropEvents PropFlow PropExact PropSession.
From Verif Require Avr Arch328p Arch2560 PropArch328 PropArch2560.
From Verif Require Import Host PropHost PropBoard PropModState PropBounce System Timed PropTimed Jitter PropJitter PropHands
     CustomSystem CustomTime PropAnyTime PropAnyHands.
Import ListNotations.

(** ** Specification *)
(** No keymap asks for negative strobes, and none has a polarity key (0xAD). *)
Definition strobe_fixed (kbs : N -> option (list setup_cmd)) : Prop :=
  forall i cs, kbs i = Some cs -> ~ In SNegStrobe cs /\ forall m mi r c, In (SAddMap m mi r c) cs -> ~ In 0xAD%N m.

(** ** Proofs *)
Lemma table_from : forall cs mi m r c, table_of cs mi = Some (m, r, c) -> exists mi', In (SAddMap m mi' r c) cs.
Proof.
  intros cs mi m r c. unfold table_of. rewrite <- fold_left_rev_right. intros E.
  enough (exists mi', In (SAddMap m mi' r c) (rev cs)) as [mi' X] by (exists mi'; apply in_rev; exact X).
  revert E. induction (rev cs) as [|x l IH]; cbn [fold_right]; intros E; [discriminate|].
  destruct x as [m' i' r' k'| | | | | ]; try (destruct (IH E) as [j Hj]; exists j; right; exact Hj).
  destruct ((i' =? mi) && (r' <=? 16) && (k' <=? 8)); [|destruct (IH E) as [j Hj]; exists j; right; exact Hj].
  inv E. exists i'. left. reflexivity.
Qed.
Lemma not_polarity : forall kbs e r c, strobe_fixed kbs -> decode (code_in kbs e r c) <> AStrobe.
Proof.
  intros kbs e r c HF E. assert (X : code_in kbs e r c = 0xAD%N).
  { revert E. generalize (code_in kbs e r c). intros x. unfold decode.
    destruct (N.eqb_spec x 0xAD); [auto|]. repeat match goal with |- context [if ?b then _ else _] => destruct b end; discriminate. }
  unfold code_in in X. destruct (kbs (e_kb e)) as [cs|] eqn:K; [|discriminate].
  destruct (table_of cs (map_in e)) as [[[m R'] C']|] eqn:TB; [|discriminate].
  destruct (table_from _ _ _ _ _ TB) as [mi IN]. destruct (HF _ _ K) as [_ Y]. apply (Y _ _ _ _ IN). rewrite <- X.
  destruct (Nat.lt_ge_cases (r * C' + c) (length m)); [apply nth_In; auto|]. rewrite nth_overflow in X by auto. discriminate.
Qed.
Lemma set_up_fixed : forall cs, ~ In SNegStrobe cs -> ~ In EvStrobeNeg (set_up cs).
Proof.
  intros cs H X. unfold set_up in X. destruct X as [X|X]; [discriminate|]. apply in_flat_map in X. destruct X as (x&I&J).
  destruct x; try contradiction.
Qed.
Lemma wire_fixed : forall R C kbs rds, strobe_fixed kbs -> ~ In EvStrobeNeg (wire_of kbs R C rds).
Proof.
  intros R C kbs rds HF. unfold wire_of. rewrite in_app_iff. intros [X|X].
  - destruct (kbs 0%N) as [cs|] eqn:K; [|contradiction]. apply (set_up_fixed cs); [apply (HF _ _ K)|exact X].
  - assert (CH : forall i e, ~ In EvStrobeNeg (chosen kbs i e)).
    { intros i e. unfold chosen. destruct (i =? e_kb e)%N; [auto|]. destruct (kbs i) as [cs|] eqn:K; [|auto]. apply set_up_fixed, (HF _ _ K). }
    assert (MV : forall l t, ~ In EvStrobeNeg (wire_moves kbs l t)).
    { induction l as [|[[r c] m] l IH]; intros t Y; cbn [wire_moves] in Y; [contradiction|]. apply in_app_iff in Y. destruct Y as [Y|Y]; [|exact (IH _ Y)].
      unfold wires in Y. pose proof (not_polarity kbs (t_set t) r c HF) as NP.
      destruct m, (decode (code_in kbs (t_set t) r c)); try contradiction; try congruence; try (exact (CH _ _ Y)); destruct Y as [Y|[]]; discriminate. }
    revert X. generalize (starts kbs) as t. generalize (@nil (nat -> N)) as pre. induction rds as [|rd rds IH]; intros pre t X; [contradiction|].
    cbn [wire_scans] in X. cbv zeta in X. rewrite !in_app_iff in X. destruct X as [X|[X|X]].
    + unfold leaves in X. destruct (_ <? 0xA0)%N; [destruct X as [X|[]]; discriminate|contradiction].
    + exact (MV _ _ X).
    + exact (IH _ _ X).
Qed.

(** With the strobe fixed, a host on either edge has latched what was sent. *)
Theorem C113_host_gets_all_sent : forall R C kbs P W n, sound_firmware R kbs -> same_size R C kbs -> strobe_fixed kbs ->
  exists s c, c_clock kbs P W n = Ok (s, c) /\ map snd (rev (stamps (jc c))) = sent s /\
    (forall h, Avr.at_reset h -> forall rise ser x, exists h', c_real kbs (board_328p false ser x) P W n h = Ok (s, (h', c)) /\
       latched rise Avr.PB 6 Avr.PD (Avr.hist h') = map lines_of (sent s)) /\
    (forall h, Avr.at_reset h -> forall rise x, exists h', c_real kbs (board_2560 false x) P W n h = Ok (s, (h', c)) /\
       latched rise Avr.PB 4 Avr.PH (Avr.hist h') = map lines_of (sent s)).
Proof.
  intros R C kbs P W n HS HZ HF. destruct (C110_whole_board_in_real_time R C kbs P W n HS HZ) as (s&c&T&E&_&_&_&EV&ST&A&B).
  cbv zeta in *. assert (SE : sent s = output_of kbs R C (readings_of W T n)).
  { assert (K0 : kbs 0%N <> None) by (destruct (proj1 HS); congruence).
    destruct (C110_any_keymaps_in_real_time kbs P W n K0) as (_&_&X). rewrite E in X. destruct X as (T'&_&_&_&X&_).
    rewrite <- ST, map_rev, X, rev_involutive. reflexivity. }
  assert (HE : forall rise, map lines_of (hear rise Avr.Low 0 (tl (wire_of kbs R C (readings_of W T n)))) = map lines_of (sent s)).
  { intros rise. pose proof (wire_fixed R C kbs (readings_of W T n) HF) as HN. pose proof (sends_wire kbs R C (readings_of W T n)) as Y.
    assert (X : exists l, wire_of kbs R C (readings_of W T n) = EvArchInit :: l).
    { unfold wire_of. destruct (proj1 HS) as [cs ->]. eexists. reflexivity. }
    destruct X as [l X]. rewrite X in *. cbn [tl] in *. change (sends (EvArchInit :: l)) with (sends l) in Y.
    rewrite hear_sends by (intros I; apply HN; right; exact I). congruence. }
  exists s, c. split; [exact E|]. split; [congruence|]. split.
  - intros h HR rise ser x. destruct (A h HR rise ser x) as (h'&X1&X2&_). exists h'. split; [exact X1|]. rewrite X2. apply HE.
  - intros h HR rise x. destruct (B h HR rise x) as (h'&X1&X2&_). exists h'. split; [exact X1|]. rewrite X2. apply HE.
Qed.
Print Assumptions C113_host_gets_all_sent.

(** Someone types in continuous time ([c_script], PropAnyHands.v): a host on
    either edge, on either board, has latched the characters typed. *)
Theorem C113_typing_to_connector : forall R C kbs P W G Z out H e,
  sound_firmware R kbs -> same_size R C kbs -> scan_hook_free kbs -> strobe_fixed kbs ->
  (forall i, c_ended kbs P W i < Z -> c_ended kbs P W (S i) <= c_ended kbs P W i + G) ->
  c_script R C kbs W G (c_ended kbs P W 0) (fun _ _ => false) (at_start kbs) Z out H e ->
  exists N s c, c_ended kbs P W N <= Z <= c_ended kbs P W (S N) /\ setting_is e s /\
    (forall h, Avr.at_reset h -> forall rise ser x, exists h', c_real kbs (board_328p false ser x) P W N h = Ok (s, (h', c)) /\
       latched rise Avr.PB 6 Avr.PD (Avr.hist h') = map lines_of out) /\
    (forall h, Avr.at_reset h -> forall rise x, exists h', c_real kbs (board_2560 false x) P W N h = Ok (s, (h', c)) /\
       latched rise Avr.PB 4 Avr.PH (Avr.hist h') = map lines_of out).
Proof.
  intros R C kbs P W G Z out H e HS HZ HQ HF HG HE.
  destruct (C112_any_keymaps_in_continuous_time R C kbs P W G Z out H e HS HZ HQ HG HE) as (N&s&c&E&ZN&<-&_&SE&_).
  destruct (C113_host_gets_all_sent R C kbs P W N HS HZ HF) as (s'&c'&E'&_&A&B). rewrite E in E'. inv E'.
  exists N, s', c'. auto.
Qed.
Print Assumptions C113_typing_to_connector.

(** The keyboard and the typing of C112: SHIFT goes down and B is struck, with
    bouncing contacts and slow passes. *)
Lemma desk_fixed : strobe_fixed desk.
Proof.
  intros i cs K. unfold desk in K. destruct (N.eqb_spec i 0); [|destruct (N.eqb_spec i 1)]; inv K;
    (split; [intros X; repeat (destruct X as [X|X]; [discriminate|]); contradiction|]; intros m mi r c X Y;
     repeat (destruct X as [X|X]; [try discriminate; inv X; repeat (destruct Y as [Y|Y]; [discriminate|]); contradiction|]); contradiction).
Qed.
Example C113_example : strobe_fixed desk /\
  bind (c_real desk (board_328p false true (fun _ => 0%N)) slow desk_world 157 PropArch328.hw0)
    (fun p => Ok (latched false Avr.PB 6 Avr.PD (Avr.hist (fst (snd p))), e_shift (at_start desk), shift_on (fst p)))
    = Ok (map lines_of [66]%N, false, true) /\
  ~ strobe_fixed flip.
Proof.
  split; [exact desk_fixed|]. split; [vm_compute; reflexivity|]. intros X. destruct (X 1%N _ eq_refl) as [Y _].
  apply Y. cbn. auto 10.
Qed.
