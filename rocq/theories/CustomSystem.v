(** The firmware built from any list of keymaps, running on a board: System.v
    with the functions of Custom.v in place of those of Asdf.v. *)
From Coq Require Import List NArith Arith Bool.
From Verif Require Import Base Lib Buffer Repeat Devices Modifiers Hook KeymapData Asdf Custom System.
Import ListNotations.
Local Open Scope outcome_scope.

Section Board.
Variable kbs : N -> option (list setup_cmd).
Context {H : Type} (M : machine H).

(** asdf.c 569-586: the row loop of asdf_keyscan, each row read through the
    ports; [mm row] is the key matrix at the moment row [row] is read. *)
Fixpoint cs_rows (fuel : nat) (mm : nat -> nat -> N) (row : nat) (s : kb) (h : H) : outcome (kb * H) :=
  match fuel with
  | O => Bad UDiverge
  | S f =>
    nr <- num_rows s ;;
    if row <? nr then
      let (v, h1) := m_read M (mm row) (N.of_nat row) h in
      let state := u8 v in
      st <- lget UScanOob (k_stable s) row ;;
      s1 <- c_cols_loop kbs 256 row 0 state (N.lxor state st) s ;;
      cs_rows f mm (S row) s1 (perform M s s1 h1)
    else Ok (s, h)
  end.

(** asdf.c 564-587. *)
Definition cs_scan (mm : nat -> nat -> N) (s : kb) (h : H) : outcome (kb * H) :=
  f <- hook_get HOOK_ROW_SCANNER (k_hook s) ;;
  match f with
  | HReadRow =>
      s1 <- hook_execute HOOK_EACH_SCAN s ;;
      cs_rows 256 mm 0 s1 (perform M s s1 h)
  | _ => Bad UHookType
  end.

(** main.c 68-78. *)
Definition cs_tick (mm : nat -> nat -> N) (s : kb) (h : H) : outcome (kb * H) :=
  '(code, s1) <- next_code s ;;
  s2 <- (if (code <? INVALID)%N then output code s1 else Ok s1) ;;
  cs_scan mm s2 (perform M s s2 h).

(** main.c 66-79: one pass per element. *)
Fixpoint cs_ticks (mms : list (nat -> nat -> N)) (s : kb) (h : H) : outcome (kb * H) :=
  match mms with
  | [] => Ok (s, h)
  | mm :: t => '(s1, h1) <- cs_tick mm s h ;; cs_ticks t s1 h1
  end.

(** main.c 61-80 from power-on, with the ports in state [h]. *)
Definition cs_run (mms : list (nat -> nat -> N)) (h : H) : outcome (kb * H) :=
  s <- c_init kbs kb_zero ;; cs_ticks mms s (perform M kb_zero s h).

End Board.

(** With the list shipped it is the firmware of System.v. *)
Lemma cs_rows_shipped : forall H (M : machine H) f mm r s h, cs_rows shipped M f mm r s h = sys_rows M f mm r s h.
Proof.
  intros H M. induction f as [|f IH]; intros; [reflexivity|]. cbn [cs_rows sys_rows].
  apply bind_ext; intros nr. destruct (r <? nr); [|reflexivity]. destruct (m_read M (mm r) (N.of_nat r) h) as [v h1]. cbv zeta.
  apply bind_ext; intros st. rewrite s_cols. apply bind_ext; intros s1. apply IH.
Qed.
Theorem cs_run_shipped : forall H (M : machine H) mms h, cs_run shipped M mms h = sys_run M mms h.
Proof.
  intros H M mms h. unfold cs_run, sys_run, boot. rewrite s_init. apply bind_ext; intros s.
  generalize (perform M kb_zero s h). revert s. induction mms as [|mm mms IH]; intros s h1; [reflexivity|].
  cbn [cs_ticks sys_ticks].
  assert (X : cs_tick shipped M mm s h1 = sys_tick M mm s h1).
  { unfold cs_tick, sys_tick. apply bind_ext; intros [code s1]. apply bind_ext; intros s2.
    unfold cs_scan, sys_scan. apply bind_ext; intros f. destruct f; [reflexivity..| |reflexivity|reflexivity].
    apply bind_ext; intros s3. apply cs_rows_shipped. }
  rewrite X. apply bind_ext; intros [s1 h2]. apply IH.
Qed.
