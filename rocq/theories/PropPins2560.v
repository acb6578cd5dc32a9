(** The pins of the LEDs and outputs of the ATmega2560 after any calls: C76. *)
From Coq Require Import List NArith ZArith Arith Bool Lia.
From Coq Require Import ZifyBool ZifyNat ZifyN.
From Verif Require Import Devices Avr ArchLib Arch2560 PropArch2560 PropHost2560 PinSpec.
Import ListNotations.
Local Open Scope N_scope.

Lemma dev_cases : forall (P : port -> N -> Prop), P PD 5 -> P PD 6 -> P PD 7 -> P PB 5 -> P PB 6 -> P PB 7 ->
  forall p b, dev2560 p b = true -> P p b.
Proof.
  intros P H1 H2 H3 H4 H5 H6 p b H. unfold dev2560, led2560 in H.
  repeat (apply orb_prop in H; destruct H as [H|H]); apply pin_eq in H; destruct H as [<- <-]; auto.
Qed.
Lemma dev_bit : forall p b, dev2560 p b = true -> b < 8.
Proof. apply dev_cases; reflexivity. Qed.

Lemma init_T : forall B h p b, dev2560 p b = true -> T (io (arch_init B h)) p b = T (io h) p b /\
  D (io (arch_init B h)) p b = led2560 p b || D (io h) p b.
Proof.
  intros B h p b H. destruct (io_arch_init B h) as (h0 & E0 & _ & _ & E & _). rewrite E, <- E0. clear E E0 h.
  unfold init_columns, init_row_outputs, init_leds, set_pos_strobe, init_ascii_output. cbv zeta.
  revert p b H. apply dev_cases; (split; autorewrite with avr; rewrite ?N.lor_spec, ?N.ldiff_spec, ?ld_prt, ?ld_ddr; autorewrite with avr;
    rewrite ?io_dpol; autorewrite with avr; bits; rewrite ?orb_true_r, ?orb_false_r, ?andb_true_r; try reflexivity).
Qed.

Lemma keep_dev : forall S h h' p b, only S h h' -> dev2560 p b = true -> S p b = false -> drive (io h') p b = drive (io h) p b.
Proof. intros S h h' p b [A _] Hd HS. apply (same_but_drive S); auto. apply (dev_bit p b); auto. Qed.

Lemma steps_snoc : forall mk l o h, steps mk (l ++ [o]) h = step mk o (steps mk l h).
Proof. intros mk l o. induction l as [|x l IH]; intros h; [reflexivity|]. cbn [app steps]. apply IH. Qed.
Lemma calls_snoc : forall l o, calls (l ++ [o]) = calls l ++ match o with OCall e => [e] | ORead _ _ => [] end.
Proof. intros l o. unfold calls. rewrite flat_map_app. cbn [flat_map]. rewrite app_nil_r. reflexivity. Qed.

(** From reset on, after initialisation and any calls and row reads, every LED
    and output pin shows the value of the last call on one of its devices;
    initialisations do not touch it. *)
Theorem C76_pins_2560 : forall x h0 l p b, at_reset h0 -> dev2560 p b = true ->
  drive (io (steps (mk false x) (OCall EvArchInit :: l) h0)) p b = expected own shows led2560 p b (calls l).
Proof.
  intros x h0 l p b (R1 & R2 & _) HD. induction l as [|o l IH] using rev_ind.
  - cbn [steps step call]. rewrite drive_DT. destruct (init_T (mk false x (fun _ => 0)) h0 p b HD) as [-> ->].
    unfold D, T. rewrite R1, R2. cbn [calls flat_map]. unfold expected, last_on. cbn [fold_left]. rewrite N.bits_0, orb_false_r. reflexivity.
  - rewrite app_comm_cons, steps_snoc, calls_snoc. pose proof (cfg_running false x l h0) as C.
    destruct o as [e|row m]; cbn [step].
    + rewrite expected_snoc. destruct e; cbn [call]; try exact IH.
      * rewrite <- IH, !drive_DT. destruct (init_T (mk false x (fun _ => 0)) (steps (mk false x) (OCall EvArchInit :: l) h0) p b HD) as [-> ->].
        destruct (led2560 p b) eqn:EL; [|reflexivity]. cbn [orb].
        assert (DD : D (io (steps (mk false x) (OCall EvArchInit :: l) h0)) p b = true).
        { destruct C. unfold led2560 in EL. repeat (apply orb_prop in EL; destruct EL as [EL|EL]); apply pin_eq in EL; destruct EL as [<- <-]; auto. }
        rewrite DD. reflexivity.
      * destruct (C44_handlers_2560 false x (fun _ => 0) h0 l d v) as (_ & K1 & K2). destruct (own d p b) eqn:EO.
        -- apply K2; auto. apply (dev_bit p b); auto.
        -- rewrite <- IH. apply K1; auto. apply (dev_bit p b); auto.
      * rewrite <- IH. apply (keep_dev (pin PB 4)); auto; [apply pos_only|]. clear IH; revert p b HD. apply dev_cases; reflexivity.
      * rewrite <- IH. apply (keep_dev (pin PB 4)); auto; [apply neg_only|]. clear IH; revert p b HD. apply dev_cases; reflexivity.
      * rewrite <- IH. apply (keep_dev (fun p b => port_eqb p PH || pin PB 4 p b)); auto; [apply send_only; reflexivity|]. clear IH; revert p b HD. apply dev_cases; reflexivity.
    + rewrite app_nil_r, <- IH. apply (keep_dev row_pin); auto; [apply read_only|]. clear IH; revert p b HD. apply dev_cases; reflexivity.
Qed.
Print Assumptions C76_pins_2560.
