(** What a host on the parallel port receives: it latches the data lines on
    every edge of one direction of the strobe line. *)
From Coq Require Import List NArith Arith Bool Lia.
From Verif Require Import Devices Avr ArchLib.
Import ListNotations.
Local Open Scope N_scope.

Definition bits8 : list N := [0; 1; 2; 3; 4; 5; 6; 7].
(** How the eight lines of port [p] are driven, and how they are driven when
    they show code [c]. *)
Definition lines (g : regs) (p : port) : list drv := map (fun b => drive g p b) bits8.
Definition lines_of (c : N) : list drv := map (fun b => if N.testbit c b then High else Low) bits8.

(** A rising or falling edge between two driven levels. *)
Definition edge (rise : bool) (a b : drv) : bool :=
  match a, b with Low, High => rise | High, Low => negb rise | _, _ => false end.

(** What has been latched, oldest first, given the successive register states,
    newest first.  Strobe is pin [sb] of port [sp], data is port [dp]. *)
Fixpoint latched (rise : bool) (sp : port) (sb : N) (dp : port) (l : list regs) : list (list drv) :=
  match l with
  | g1 :: l0 =>
    match l0 with
    | g0 :: _ => latched rise sp sb dp l0 ++ (if edge rise (drive g0 sp sb) (drive g1 sp sb) then [lines g1 dp] else [])
    | [] => []
    end
  | [] => []
  end.

(** What a host hears of a sequence of calls: the codes sent, and one spurious
    code per change of the idle level in the direction of its edge.  [idle] is
    the idle level of the strobe, [data] what the lines show. *)
Fixpoint hear (rise : bool) (idle : drv) (data : N) (l : list event) : list N :=
  match l with
  | [] => []
  | EvSend c :: l => c :: hear rise idle c l
  | EvStrobePos :: l => (if edge rise idle Low then [data] else []) ++ hear rise Low data l
  | EvStrobeNeg :: l => (if edge rise idle High then [data] else []) ++ hear rise High data l
  | EvArchInit :: l => (if edge rise idle Low then [0] else []) ++ hear rise Low 0 l
  | _ :: l => hear rise idle data l
  end.

(** ** Lemmas *)
Definition spurious {A} (b : bool) (x : A) : list A := if b then [x] else [].
Lemma latched_step : forall rise sp sb dp g1 g0 l, latched rise sp sb dp (g1 :: g0 :: l) =
  latched rise sp sb dp (g0 :: l) ++ spurious (edge rise (drive g0 sp sb) (drive g1 sp sb)) (lines g1 dp).
Proof. reflexivity. Qed.
Lemma edge_same : forall rise a, edge rise a a = false.
Proof. intros rise []; auto. Qed.

Definition top (h : hw) : Prop := exists t, hist h = io h :: t.
Lemma top_wr : forall B r v h, top (wr B r v h).
Proof. intros. exists (hist h). apply hist_wr. Qed.
Lemma top_set : forall B r b h, top (set_bit B r b h).
Proof. intros. exists (hist h). apply hist_set. Qed.
Lemma top_clr : forall B r b h, top (clear_bit B r b h).
Proof. intros. exists (hist h). apply hist_clr. Qed.

Lemma latched_still : forall rise sp sb dp seg g0 t, Forall (fun g => drive g sp sb = drive g0 sp sb) seg ->
  latched rise sp sb dp (seg ++ g0 :: t) = latched rise sp sb dp (g0 :: t).
Proof.
  intros rise sp sb dp seg g0 t H. induction H as [|g seg H HF IH]; auto. cbn [app].
  destruct seg as [|g' seg]; cbn [app] in *.
  - rewrite latched_step, H, edge_same. apply app_nil_r.
  - inversion HF. subst. rewrite latched_step, H, H2, edge_same. rewrite IH. apply app_nil_r.
Qed.
(** Also before the first write: no edge as long as the strobe is not driven high. *)
Lemma latched_none : forall rise sp sb dp l, Forall (fun g => drive g sp sb <> High) l -> latched rise sp sb dp l = [].
Proof.
  intros rise sp sb dp l H. induction H as [|g l H HF IH]; auto. destruct l as [|g' l]; auto.
  rewrite latched_step, IH. inversion HF. subst. destruct (drive g' sp sb), (drive g sp sb); auto; congruence.
Qed.

Lemma lines_same : forall S g g' p, same_but S g g' -> (forall b, b < 8 -> S p b = false) -> lines g' p = lines g p.
Proof.
  intros S g g' p H HS. unfold lines. apply map_ext_in. intros b Hb. apply (same_but_drive S); auto; [|apply HS];
    cbn in Hb; repeat destruct Hb as [<-|Hb]; try contradiction; reflexivity.
Qed.
Lemma lines_DT : forall g p c, (forall b, b < 8 -> D g p b = true) -> (forall b, b < 8 -> T g p b = N.testbit c b) -> lines g p = lines_of c.
Proof.
  intros g p c H1 H2. unfold lines, lines_of. apply map_ext_in. intros b Hb.
  assert (b < 8) by (cbn in Hb; repeat destruct Hb as [<-|Hb]; try contradiction; reflexivity).
  rewrite drive_DT, H1, H2 by auto. auto.
Qed.

Lemma only_still : forall rise S sp sb dp h h', only S h h' -> sb < 8 -> S sp sb = false -> top h ->
  latched rise sp sb dp (hist h') = latched rise sp sb dp (hist h).
Proof.
  intros rise S sp sb dp h h' [_ [l [E F]]] Hb HS [t ET]. rewrite E, ET. apply latched_still.
  eapply Forall_impl; [|exact F]. intros g G. apply (same_but_drive S); auto.
Qed.
