(** The firmware built from any list of keymaps, in real time on a board:
    Jitter.v and Timed.v with the functions of Custom.v in place of those of
    Asdf.v. *)
From Coq Require Import List NArith Arith Bool.
From Verif Require Import Base Lib Buffer Repeat Devices Modifiers Hook KeymapData Asdf Custom System CustomSystem Timed Jitter.
Import ListNotations.
Local Open Scope outcome_scope.

Section Firmware.
Variable kbs : N -> option (list setup_cmd).

(** main.c 66-79: [n] passes of the loop body, each after a wait [w]. *)
Fixpoint c_passes {H} (w : H -> H) (M : machine H) (n : nat) (s : kb) (h : H) : outcome (kb * H) :=
  match n with
  | O => Ok (s, h)
  | S k => '(s1, h1) <- cs_tick kbs M (fun _ _ => 0%N) s (w h) ;; c_passes w M k s1 h1
  end.
(** main.c 61-80, from power-on. *)
Definition c_live {H} (w : H -> H) (M : machine H) (n : nat) (h : H) : outcome (kb * H) :=
  s <- c_init kbs kb_zero ;; c_passes w M n s (perform M kb_zero s h).
(** On a board with its clock; [P] says where interrupts occur, [W] how the keys
    move (Jitter.v). *)
Definition c_real {H} (M : machine H) (P : nat -> nat) (W : nat -> nat -> N) (n : nat) (h : H) : outcome (kb * (H * jclk)) :=
  c_live (fun x => (fst x, jwait P (snd x))) (jtimed M P W) n (h, mkJ clk0 0).
(** The firmware with its clock only. *)
Definition c_clock (P : nat -> nat) (W : nat -> nat -> N) (n : nat) : outcome (kb * jclk) :=
  c_live (jwait P) (jwatch P W) n (mkJ clk0 0).
End Firmware.

(** With the list shipped it is the firmware of Jitter.v. *)
Lemma cs_tick_shipped : forall H (M : machine H) mm s h, cs_tick shipped M mm s h = sys_tick M mm s h.
Proof.
  intros H M mm s h. unfold cs_tick, sys_tick. apply bind_ext; intros [code s1]. apply bind_ext; intros s2.
  unfold cs_scan, sys_scan. apply bind_ext; intros f. destruct f; [reflexivity..| |reflexivity|reflexivity].
  apply bind_ext; intros s3. apply cs_rows_shipped.
Qed.
Lemma c_live_shipped : forall H w (M : machine H) n h, c_live shipped w M n h = live w M n h.
Proof.
  intros H w M n h. unfold c_live, live, boot. rewrite s_init. apply bind_ext; intros s.
  generalize (perform M kb_zero s h). revert s. induction n as [|n IH]; intros s x; [reflexivity|].
  cbn [c_passes passes]. rewrite cs_tick_shipped. apply bind_ext; intros [s1 x1]. apply IH.
Qed.
Theorem c_real_shipped : forall H (M : machine H) P W n h, c_real shipped M P W n h = jreal_on M P W n h.
Proof. intros H M P W n h. apply c_live_shipped. Qed.
Theorem c_clock_shipped : forall P W n, c_clock shipped P W n = jreal P W n.
Proof. intros P W n. apply c_live_shipped. Qed.
