(** The concrete model refines the abstract keyboard machine. *)
From Coq Require Import List NArith ZArith Arith Bool Lia.
From Coq Require Import ZifyBool ZifyNat ZifyN.
From Verif Require Import Base Lib Buffer BufferSpec BufferProofs Repeat Devices DevSpec DevProofs
     Modifiers Hook KeymapData Asdf KeySpec.
Import ListNotations.
Local Open Scope outcome_scope.

(** ** Static tables in the form the code stores them *)
Definition maps_of (kbd : N) : list kmap :=
  map (fun m => mkKmap (Some (table kbd m)) (nrows kbd) 8) [0; 1; 2; 3].

Definition fn_hook (kbd : N) (n : nat) : hookfn :=
  match message kbd n with Some m => HPrint m | None => HNull end.
Definition hooks_of (kbd : N) : hooks :=
  [HNull; HKeyscan; HReadRow; HSend; HNull] ++ map (fn_hook kbd) (seq 1 11).

(** ** Simulation *)
Definition sim {A B} (P : A -> B -> Prop) (x : option A) (y : outcome B) : Prop :=
  match x with
  | Some a => exists b, y = Ok b /\ P a b
  | None => y = Bad UKeymapsOob
  end.

Lemma sim_bind : forall A B C D (P : A -> B -> Prop) (Q : C -> D -> Prop) x y f g,
  sim P x y -> (forall a b, P a b -> sim Q (f a) (g b)) -> sim Q (obind x f) (bind y g).
Proof.
  intros. destruct x; cbn in *.
  - destruct H as [b [-> H]]. cbn. auto.
  - rewrite H. reflexivity.
Qed.

(** Facts about the state that the key scanner does not touch while running
    an action. *)
Record Rel (a : akb) (s : kb) : Prop := mkRel {
  rl_stlen : length (k_stable s) = 16;
  rl_stable : forall r b, nth_error (k_stable s) r = Some b ->
     (b < 256)%N /\ forall c, c < 8 -> N.testbit b (N.of_nat c) = a_dn a r c;
  rl_cntlen : length (k_cnt s) = 128;
  rl_cnt : forall r c v, c < 8 -> nth_error (k_cnt s) (r * 8 + c) = Some v ->
     v = a_ct a r c /\ (1 <= v <= 10)%N;
  rl_last : k_last s = a_last a;
  rl_hkey : k_hkey s = 0%Z;
  rl_hmsg : k_hmsg s = 1%Z;
  rl_delay : k_delay s = 40%N;
  rl_buf : R [mkFifo 16 (a_qk a); mkFifo 128 (a_qm a)] (k_buf s);
  rl_rep : k_rep s = a_rep a;
  rl_mod : k_mod s = a_mod a;
  rl_dev : RD (mkVspec (own (wiring (a_cur a))) (fn (wiring (a_cur a))) (a_lev a)) (k_dev s);
  rl_log : log (k_dev s) = a_log a;
  rl_hook : k_hook s = hooks_of (a_cur a);
  rl_maps : k_maps s = maps_of (a_cur a);
  rl_cur : k_cur s = a_cur a;
  rl_lt : (a_cur a < 6)%N;
  rl_qm : Forall (fun c => (c < 160)%N) (a_qm a)
}.

Ltac kcases i := (* case analysis on a keyboard index < 6 *)
  let H := fresh in
  assert (H : i = 0%N \/ i = 1%N \/ i = 2%N \/ i = 3%N \/ i = 4%N \/ i = 5%N) by lia;
  destruct H as [H|[H|[H|[H|[H|H]]]]]; subst i.

(** ** Queues *)
Lemma put_key : forall c qk qm b, R [mkFifo 16 qk; mkFifo 128 qm] b ->
  exists b', buffer_put 0 c b = Ok b' /\ R [mkFifo 16 (qput 16 c qk); mkFifo 128 qm] b'.
Proof.
  intros c qk qm b H. destruct (step_refines (BPut 0 c) _ _ H I) as [b' [E H']].
  cbn [buf_step] in E. apply bind_ok in E. destruct E as [b1 [E1 E2]].
  cbn [spec_step find] in *. cbn in E2, H'. inv E2. exists b'. split; auto.
  unfold qput. replace (Z.of_nat (length qk) <? 16)%Z with (length qk <? 16) in H' by lia.
  destruct (length qk <? 16); auto.
Qed.

Lemma put_msg : forall c qk qm b, R [mkFifo 16 qk; mkFifo 128 qm] b ->
  exists b', buffer_put 1 c b = Ok b' /\ R [mkFifo 16 qk; mkFifo 128 (qput 128 c qm)] b'.
Proof.
  intros c qk qm b H. destruct (step_refines (BPut 1 c) _ _ H I) as [b' [E H']].
  cbn [buf_step] in E. apply bind_ok in E. destruct E as [b1 [E1 E2]].
  unfold spec_step, find in *. replace (Z.to_nat 1) with 1 in * by reflexivity. cbn in E2, H'. inv E2. exists b'. split; auto.
  unfold qput. replace (Z.of_nat (length qm) <? 128)%Z with (length qm <? 128) in H' by lia.
  destruct (length qm <? 128); auto.
Qed.

Lemma get_msg : forall qk qm b, R [mkFifo 16 qk; mkFifo 128 qm] b ->
  exists b', buffer_get 1 b = Ok (hd INVALID qm, b') /\ R [mkFifo 16 qk; mkFifo 128 (tl qm)] b'.
Proof.
  intros qk qm b H. destruct (step_refines (BGet 1) _ _ H I) as [b' [E H']].
  cbn [buf_step] in E. apply bind_ok in E. destruct E as [[c b1] [E1 E2]].
  unfold spec_step, find in *. replace (Z.to_nat 1) with 1 in * by reflexivity. cbn in E2, H'. exists b1. inv E2.
  destruct qm; cbn in *; inv H1; auto.
Qed.

Lemma get_key : forall qk qm b, R [mkFifo 16 qk; mkFifo 128 qm] b ->
  exists b', buffer_get 0 b = Ok (hd INVALID qk, b') /\ R [mkFifo 16 (tl qk); mkFifo 128 qm] b'.
Proof.
  intros qk qm b H. destruct (step_refines (BGet 0) _ _ H I) as [b' [E H']].
  cbn [buf_step] in E. apply bind_ok in E. destruct E as [[c b1] [E1 E2]].
  cbn [spec_step find] in *. cbn in E2, H'. exists b1. inv E2.
  destruct qk; cbn in *; inv H1; auto.
Qed.

Lemma qput_forall : forall (P : N -> Prop) cap c q, Forall P q -> P c -> Forall P (qput cap c q).
Proof.
  intros. unfold qput. destruct (length q <? cap); auto. apply Forall_app; auto.
Qed.

Lemma qput_all_forall : forall (P : N -> Prop) cap l q,
  Forall P q -> Forall P l -> Forall P (qput_all cap l q).
Proof.
  induction l as [|c l IH]; cbn; intros; auto. inv H0. apply IH; auto. apply qput_forall; auto.
Qed.

Lemma qput_all_app : forall cap l1 l2 q,
  qput_all cap (l1 ++ l2) q = qput_all cap l2 (qput_all cap l1 q).
Proof. induction l1 as [|c l1 IH]; cbn; intros; auto. Qed.

(** ** Projection lemmas: an action that leaves the scanner state alone *)
Ltac rel H := destruct H as [Q1 Q2 Q3 Q4 Q5 Q6 Q7 Q8 Q9 Q10 Q11 Q12 Q13 Q14 Q15 Q16 Q17 Q18].

Lemma Rel_buf_k : forall a s b q, Rel a s -> R [mkFifo 16 q; mkFifo 128 (a_qm a)] b ->
  Rel (put_qk q a) (set_buf b s).
Proof. intros. rel H. constructor; auto. Qed.
Lemma Rel_buf_m : forall a s b q, Rel a s -> R [mkFifo 16 (a_qk a); mkFifo 128 q] b ->
  Forall (fun c => (c < 160)%N) q -> Rel (put_qm q a) (set_buf b s).
Proof. intros. rel H. constructor; auto. Qed.
Lemma Rel_rep : forall a s r, Rel a s -> Rel (put_rep r a) (set_rep r s).
Proof. intros. rel H. constructor; auto. Qed.
Lemma Rel_last : forall a s c, Rel a s -> Rel (put_last c a) (set_last c s).
Proof. intros. rel H. constructor; auto. Qed.

Lemma RD_emit : forall s d e, RD s d -> RD s (emit e d).
Proof. intros s d e [A B C D E]. constructor; auto. Qed.

Lemma Rel_note : forall a s e, Rel a s -> Rel (note e a) (emit_kb e s).
Proof.
  intros. rel H. constructor; auto; cbn.
  - apply RD_emit; auto.
  - congruence.
Qed.

Lemma Rel_mods : forall a s m, Rel a s ->
  Rel (put_mod m a) (set_md (m, k_dev s) s).
Proof. intros. rel H. constructor; auto. Qed.

(** An output action. *)
Lemma aact_sim : forall f v a s, Rel a s -> v < 12 ->
  exists d, virtual_action v f (k_dev s) = Ok d /\ Rel (aact f v a) (set_dev d s).
Proof.
  intros f v a s H Hv. pose proof H as H'. rel H.
  destruct (action_refines f _ _ v Q12 Hv) as [d (E&F&G)]. cbn [own fn lev] in F, G.
  exists d. split; auto. unfold aact.
  destruct (spec_action f (own (wiring (a_cur a)) v) (a_lev a)) as [lv ev]. cbn in F, G.
  constructor; auto. cbn. congruence.
Qed.

Lemma aact_cur : forall f v a, a_cur (aact f v a) = a_cur a.
Proof. intros. unfold aact. destruct (spec_action _ _ _). reflexivity. Qed.
Lemma aact_mod : forall f v a, a_mod (aact f v a) = a_mod a.
Proof. intros. unfold aact. destruct (spec_action _ _ _). reflexivity. Qed.

Lemma on_dev_sim : forall f v a s, Rel a s -> v < 12 ->
  exists s', on_dev (virtual_action v f) s = Ok s' /\ Rel (aact f v a) s'.
Proof.
  intros. destruct (aact_sim f v a s H H0) as [d [E F]]. unfold on_dev. rewrite E. cbn. eauto.
Qed.

Lemma activate_sim : forall v a s, Rel a s -> v < 12 ->
  exists s', on_dev (virtual_activate v) s = Ok s' /\
             Rel (aact (fn (wiring (a_cur a)) v) v a) s'.
Proof.
  intros v a s H Hv. destruct (aact_sim (fn (wiring (a_cur a)) v) v a s H Hv) as [d [E F]].
  pose proof H as H'. rel H. unfold on_dev, virtual_activate.
  destruct Q12 as [RP RV RF RT RL].
  destruct (RT v) as [x (X1&X2&X3)]; auto. cbn [own fn] in *.
  rewrite (proj2 (lget_ok _ _ _ _ _) X1). cbn [bind]. subst; rewrite X3, E. cbn. eauto.
Qed.

Lemma set_shift_sim : forall x a s, Rel a s ->
  exists s', on_md (set_shift_state x) s = Ok s' /\ Rel (aset_shift x a) s'.
Proof.
  intros x a s H. unfold on_md, set_shift_state, aset_shift.
  assert (E : (N.land x SHIFT_LOCKED_ST =? 0)%N = negb (N.testbit x 1)).
  { unfold SHIFT_LOCKED_ST. replace 2%N with (2 ^ 1)%N by reflexivity.
    destruct (N.testbit x 1) eqn:T; cbn [negb].
    - apply N.eqb_neq. intros Z. apply (f_equal (fun y => N.testbit y 1)) in Z.
      rewrite N.land_spec, T, N.pow2_bits_true, N.bits_0 in Z. discriminate.
    - apply N.eqb_eq. apply N.bits_inj. intros k. rewrite N.land_spec, N.bits_0.
      destruct (N.eq_dec k 1); [subst; rewrite T; auto|].
      rewrite N.pow2_bits_false by lia. apply andb_false_r. }
  rewrite E.
  destruct (aact_sim (if N.testbit x 1 then V_SET_HI else V_SET_LO) VSHIFT_LED a s H
              ltac:(apply Nat.ltb_lt; reflexivity)) as [d [F G]].
  replace (if negb (N.testbit x 1) then V_SET_LO else V_SET_HI)
    with (if N.testbit x 1 then V_SET_HI else V_SET_LO) by (destruct (N.testbit x 1); auto).
  rewrite F. cbn [bind]. eexists. split; [reflexivity|].
  rewrite aact_mod. rewrite <- (rl_mod _ _ H).
  apply (Rel_mods _ (set_dev d s)). auto.
Qed.

Lemma caps_sim : forall a s, Rel a s ->
  exists s', on_md capslock_activate s = Ok s' /\ Rel (atoggle_caps a) s'.
Proof.
  intros a s H. unfold on_md, capslock_activate, set_caps_state, atoggle_caps. cbn [fst].
  rewrite (rl_mod _ _ H). unfold CAPS_LOCKED_ST.
  set (x := N.lxor (m_caps (a_mod a)) 1).
  destruct (aact_sim (if (x =? 0)%N then V_SET_LO else V_SET_HI) VCAPS_LED a s H
              ltac:(apply Nat.ltb_lt; reflexivity)) as [d [F G]].
  rewrite F. cbn [bind]. eexists. split; [reflexivity|].
  rewrite aact_mod. apply (Rel_mods _ (set_dev d s)). auto.
Qed.

Lemma ctrl_sim : forall x a s, Rel a s -> Rel (aset_ctrl x a)
   (set_md (mkMods (m_shift (k_mod s)) (m_caps (k_mod s)) x, k_dev s) s).
Proof.
  intros. unfold aset_ctrl. rewrite (rl_mod _ _ H). apply Rel_mods; auto.
Qed.

(** ** Messages *)
Lemma putc_sim : forall c a s, Rel a s -> (c < 160)%N ->
  exists s', putc c s = Ok s' /\
    Rel (put_qm (qput_all 128 (expand [c]) (a_qm a)) a) s'.
Proof.
  intros c a s H Hc. pose proof H as H'. rel H. unfold putc. rewrite Q7.
  unfold expand. cbn [flat_map]. rewrite app_nil_r.
  destruct (N.eqb_spec c 10).
  - destruct (put_msg 13 _ _ _ Q9) as [b1 [E1 B1]]. rewrite E1. cbn [bind].
    destruct (put_msg c _ _ _ B1) as [b2 [E2 B2]]. rewrite E2. cbn [bind].
    eexists; split; [reflexivity|]. apply Rel_buf_m; auto.
    cbn [qput_all]. repeat apply qput_forall; auto; lia.
  - cbn [bind]. destruct (put_msg c _ _ _ Q9) as [b2 [E2 B2]]. rewrite E2. cbn [bind].
    eexists; split; [reflexivity|]. apply Rel_buf_m; auto. apply qput_forall; auto.
Qed.

Lemma print_sim : forall m a s, Rel a s -> Forall (fun c => (c < 160 /\ c <> 37)%N) m ->
  exists s', print m s = Ok s' /\ Rel (aprint m a) s'.
Proof.
  induction m as [|c m IH]; intros a s H HF.
  - exists s. split; auto. destruct a; exact H.
  - inv HF. destruct H2 as [H2 N2]. cbn [print]. destruct (N.eqb_spec c 37); [contradiction|].
    destruct (putc_sim c a s H H2) as [s1 [E1 R1]]. rewrite E1. cbn [bind].
    destruct (IH _ _ R1 H3) as [s2 [E2 R2]]. exists s2. split; auto.
    unfold aprint in *. cbn [a_qm put_qm] in R2.
    replace (expand (c :: m)) with (expand [c] ++ expand m)
      by (unfold expand; cbn [flat_map]; rewrite app_nil_r; reflexivity).
    rewrite qput_all_app. exact R2.
Qed.

Lemma messages_small : forall k n m, (k < 6)%N -> message k n = Some m ->
  Forall (fun c => (c < 160 /\ c <> 37)%N) m.
Proof.
  assert (B : forall m, forallb (fun c => (c <? 160)%N && negb (c =? 37)%N) m = true -> Forall (fun c => (c < 160 /\ c <> 37)%N) m).
  { intros m H. apply Forall_forall. rewrite forallb_forall in H. intros x Hx.
    apply H in Hx. apply andb_true_iff in Hx. destruct Hx as [X1 X2]. apply N.ltb_lt in X1.
    destruct (N.eqb_spec x 37); [discriminate|auto]. }
  intros k n m Hk E. kcases k; do 11 (destruct n as [|n]; [inv E; auto; apply B; vm_compute; reflexivity|]);
    inv E.
Qed.

Lemma hook_sim : forall n a s, Rel a s -> 1 <= n <= 11 ->
  exists s', hook_execute (4 + n) s = Ok s' /\
    Rel (match message (a_cur a) n with Some m => aprint m a | None => a end) s'.
Proof.
  intros n a s H Hn. unfold hook_execute.
  replace (hook_valid_id (4 + n)) with true
    by (unfold hook_valid_id, HOOK_NULL, num_hooks; symmetry; apply andb_true_iff; split; apply Nat.ltb_lt; lia).
  rewrite (rl_hook _ _ H).
  assert (E : nth_error (hooks_of (a_cur a)) (4 + n) = Some (fn_hook (a_cur a) n)).
  { unfold hooks_of. rewrite nth_error_app2 by (cbn; lia).
    replace (4 + n - length [HNull; HKeyscan; HReadRow; HSend; HNull]) with (n - 1) by (cbn [length]; lia).
    rewrite nth_error_map. rewrite (nth_error_nth' _ 0) by (rewrite seq_length; lia).
    rewrite seq_nth by lia. cbn. do 2 f_equal. lia. }
  rewrite (proj2 (lget_ok _ _ _ _ _) E). cbn [bind]. unfold fn_hook.
  destruct (message (a_cur a) n) eqn:M; eauto.
  apply print_sim; auto. eapply messages_small; eauto. apply (rl_lt _ _ H).
Qed.

(** ** Keyboard selection *)
Definition same_scanner (s s' : kb) : Prop :=
  k_stable s' = k_stable s /\ k_cnt s' = k_cnt s /\ k_last s' = k_last s /\
  k_hkey s' = k_hkey s /\ k_hmsg s' = k_hmsg s /\ k_buf s' = k_buf s /\ k_rep s' = k_rep s.

(** The part of a setup before the modifiers are touched. *)
Lemma setup_assign : forall v p f i s sp, RD sp (k_dev s) ->
  exists d, on_dev (virtual_assign v p f i) s = Ok (set_dev d s) /\
    RD (fst (vspec_step (VAssign v p f i) sp)) d /\ log d = log (k_dev s).
Proof.
  intros. destruct (assign_refines v p f i _ _ H) as [d (A&B&C)].
  exists d. unfold on_dev. rewrite A. auto.
Qed.

Lemma reset_ok : forall s, length (k_maps s) = 4 ->
  keymaps_reset s = Ok (set_hook hook_init (set_dev (virtual_init (k_dev s))
     (set_maps (repeat (mkKmap None 0 0) 4) s))).
Proof.
  intros. destruct s as [a b c d e f g h i j k m n]. cbn in H.
  destruct m as [|m0 [|m1 [|m2 [|m3 [|]]]]]; try discriminate. reflexivity.
Qed.

(** The state in which only the tables differ. *)
Definition with_tables (mp : list kmap) (hk : hooks) (d : devs) (dl : N) (s : kb) : kb :=
  set_delay dl (set_dev d (set_hook hk (set_maps mp s))).

Fixpoint plain_setup (cs : list setup_cmd) : bool :=
  match cs with
  | [] => true
  | SCapslock :: _ | SNegStrobe :: _ => false
  | _ :: t => plain_setup t
  end.
Fixpoint assigns_of (cs : list setup_cmd) : list vop :=
  match cs with
  | [] => []
  | SAssign v p f i :: t => VAssign v p f i :: assigns_of t
  | _ :: t => assigns_of t
  end.
Fixpoint tables_of (cs : list setup_cmd) (mp : list kmap) (hk : hooks) (dl : N)
  : list kmap * hooks * N :=
  match cs with
  | [] => (mp, hk, dl)
  | SAddMap m mi r c :: t =>
      tables_of t (if (mi <? 4) && (r <=? 16) && (c <=? 8) then upd mp mi (mkKmap (Some m) r c) else mp) hk dl
  | SHook id f :: t => tables_of t mp (if (0 <? id) && (id <? 16) then upd hk id f else hk) dl
  | SDelay d :: t => tables_of t mp hk (u8 d)
  | _ :: t => tables_of t mp hk dl
  end.

Lemma plain_run : forall cs mp hk d dl s sp,
  plain_setup cs = true -> length mp = 4 -> length hk = 16 -> RD sp d ->
  exists d', setup_run cs (with_tables mp hk d dl s) =
      Ok (let '(mp', hk', dl') := tables_of cs mp hk dl in with_tables mp' hk' d' dl' s) /\
    RD (fst (vspec_run (assigns_of cs) sp)) d' /\ log d' = log d.
Proof.
  induction cs as [|c cs IH]; intros mp hk d dl s sp HP HM HK HR.
  - exists d. auto.
  - destruct c; cbn [plain_setup] in HP; try discriminate; cbn [setup_run setup_step tables_of assigns_of].
    + unfold add_map. change num_modifiers with 4. change max_rows with 16. change max_cols with 8.
      destruct ((mi <? 4) && (rows <=? 16) && (cols <=? 8)) eqn:E.
      * rewrite lset_ok by (cbn; lia). cbn [bind]. cbn [k_maps with_tables set_delay set_dev set_hook set_maps].
        apply (IH (upd mp mi (mkKmap (Some matrix) rows cols)) hk d dl s sp); auto.
        rewrite upd_length; auto.
      * cbn [bind]. apply IH; auto.
    + unfold hook_assign, hook_valid_id. change HOOK_NULL with 0. change num_hooks with 16.
      destruct ((0 <? id) && (id <? 16)) eqn:E.
      * rewrite lset_ok by (cbn; lia). cbn [bind].
        apply (IH mp (upd hk id f) d dl s sp); auto. rewrite upd_length; auto.
      * cbn [bind]. apply (IH mp hk d dl s sp); auto.
    + destruct (setup_assign vo po fn init (with_tables mp hk d dl s) sp HR) as [d1 (A&B&C)].
      rewrite A. cbn [bind].
      destruct (IH mp hk d1 dl s _ HP HM HK B) as [d' (X&Y&Z)].
      exists d'. split; [exact X|]. split.
      * destruct (vspec_step (VAssign vo po fn init) sp) as [s1 e1] eqn:ES. cbn [vspec_run]. rewrite ES.
        cbn [fst] in Y. destruct (vspec_run (assigns_of cs) s1) eqn:EV. exact Y.
      * rewrite Z. exact C.
    + cbn [bind]. apply (IH mp hk d (u8 ms) s sp); auto.
Qed.

Lemma setup_run_app : forall c1 c2 s, setup_run (c1 ++ c2) s = (s1 <- setup_run c1 s ;; setup_run c2 s1).
Proof.
  induction c1 as [|c c1 IH]; cbn; intros; auto. destruct (setup_step c s); cbn; auto.
Qed.

(** Setups are tables followed by the CAPS LOCK and strobe calls (the message
    registration of keyboard 4 comes after them and commutes). *)
Definition setup_tail (i : N) : list setup_cmd :=
  match i with
  | 2 | 5 => [SCapslock] | 4 => [SCapslock; SNegStrobe; SHook HOOK_USER_10 (HPrint msg_sol_id)] | _ => []
  end%N.
Definition setup_head (i : N) : list setup_cmd :=
  firstn (length (setup_of i) - length (setup_tail i)) (setup_of i).
Definition hooks_before (i : N) : hooks :=
  if (i =? 4)%N then upd (hooks_of 4) HOOK_USER_10 HNull else hooks_of i.

Lemma heads_ok : forall i, (i < 6)%N ->
  setup_of i = setup_head i ++ setup_tail i /\
  plain_setup (setup_head i) = true /\
  assigns_of (setup_head i) = outputs i /\
  tables_of (setup_head i) (repeat (mkKmap None 0 0) 4) hook_init 0 = (maps_of i, hooks_before i, 40%N).
Proof. intros i H. kcases i; repeat split. Qed.

Lemma tables_delay : forall i dl, (i < 6)%N ->
  tables_of (setup_head i) (repeat (mkKmap None 0 0) 4) hook_init dl = (maps_of i, hooks_before i, 40%N).
Proof. intros i dl H. kcases i; reflexivity. Qed.

(** For every previous state: the tables after selecting keyboard [i]. *)
Lemma switch_tables : forall i s, (i < 6)%N -> length (k_maps s) = 4 ->
  exists d, RD (wiring i) d /\ log d = EvArchInit :: log (k_dev s) /\
    keymaps_switch i s =
      setup_run (setup_tail i) (set_cur i (with_tables (maps_of i) (hooks_before i) d 40 s)).
Proof.
  intros i s Hi HM. unfold keymaps_switch, keymap_valid.
  rewrite (proj2 (N.ltb_lt _ _) Hi).
  rewrite reset_ok by (cbn; auto). cbn [bind].
  destruct (heads_ok i Hi) as (E1&E2&E3&_).
  destruct (plain_run (setup_head i) (repeat (mkKmap None 0 0) 4) hook_init
     (virtual_init (emit EvArchInit (k_dev s))) (k_delay s) (set_cur i s) spec_zero E2 eq_refl eq_refl (RD_init _))
     as [d (A&B&C)].
  rewrite E3 in B. exists d. split; [exact B|]. split; [rewrite C; reflexivity|].
  rewrite E1, setup_run_app.
  replace (set_hook hook_init _) with
    (with_tables (repeat (mkKmap None 0 0) 4) hook_init (virtual_init (emit EvArchInit (k_dev s)))
       (k_delay s) (set_cur i s)) by reflexivity.
  rewrite A. rewrite (tables_delay i _ Hi). cbn [bind]. reflexivity.
Qed.

(** Everything but the tables is related. *)
Record RelScan (a : akb) (s : kb) : Prop := mkRelScan {
  rs_stlen : length (k_stable s) = 16;
  rs_stable : forall r b, nth_error (k_stable s) r = Some b ->
     (b < 256)%N /\ forall c, c < 8 -> N.testbit b (N.of_nat c) = a_dn a r c;
  rs_cntlen : length (k_cnt s) = 128;
  rs_cnt : forall r c v, c < 8 -> nth_error (k_cnt s) (r * 8 + c) = Some v ->
     v = a_ct a r c /\ (1 <= v <= 10)%N;
  rs_last : k_last s = a_last a;
  rs_hkey : k_hkey s = 0%Z;
  rs_hmsg : k_hmsg s = 1%Z;
  rs_buf : R [mkFifo 16 (a_qk a); mkFifo 128 (a_qm a)] (k_buf s);
  rs_rep : k_rep s = a_rep a;
  rs_mod : k_mod s = a_mod a;
  rs_qm : Forall (fun c => (c < 160)%N) (a_qm a)
}.
Lemma Rel_scan : forall a s, Rel a s -> RelScan a s.
Proof. intros a s H. rel H. constructor; auto. Qed.

Lemma hook4_ok : hook_assign HOOK_USER_10 (HPrint msg_sol_id) (hooks_before 4) = Ok (hooks_of 4).
Proof. reflexivity. Qed.

(** Keyboard 4 runs its CAPS LOCK and strobe calls before the last hook is
    registered, so the relation is stated for an arbitrary hook table. *)
Lemma caps_any : forall a s h, Rel a (set_hook h s) ->
  exists s', on_md capslock_activate s = Ok s' /\ Rel (atoggle_caps a) (set_hook h s') /\ k_hook s' = k_hook s.
Proof.
  intros a s h H. destruct (caps_sim _ _ H) as [s1 [E1 R1]]. unfold on_md in *. cbn [k_mod k_dev set_hook] in E1.
  destruct (capslock_activate (k_mod s, k_dev s)); [|discriminate]. cbn [bind] in *. inv E1.
  eexists. split; [reflexivity|]. split; auto.
Qed.

Lemma switch_sim : forall i a s, (i < 6)%N -> length (k_maps s) = 4 -> RelScan a s ->
  log (k_dev s) = a_log a ->
  exists s', keymaps_switch i s = Ok s' /\ Rel (aswitch i a) s'.
Proof.
  intros i a s Hi HM HS HL. destruct (switch_tables i s Hi HM) as [d (A&B&C)]. rewrite C. clear C.
  set (s1 := set_cur i (with_tables (maps_of i) (hooks_before i) d 40 s)).
  assert (H1 : Rel (note EvArchInit (put_lev (lev (wiring i)) (put_cur i a))) (set_hook (hooks_of i) s1)).
  { destruct HS as [S1 S2 S3 S4 S5 S6 S7 S8 S9 S10 S11]. constructor; auto; cbn.
    - destruct (wiring i); exact A.
    - rewrite B. congruence. }
  unfold aswitch. set (a1 := note _ _) in *.
  assert (HB : i = 4%N \/ set_hook (hooks_of i) s1 = s1).
  { kcases i; auto. }
  destruct (N.eqb_spec i 4).
  - subst i. cbn [setup_tail toggles_caps].
    destruct (caps_any _ _ _ H1) as [s2 (E2&R2&K2)].
    cbn [setup_run setup_step]. rewrite E2. cbn [bind].
    change (k_hook (emit_kb EvStrobeNeg s2)) with (k_hook s2). rewrite K2.
    change (k_hook s1) with (hooks_before 4). rewrite hook4_ok. cbn [bind].
    eexists. split; [reflexivity|].
    apply Rel_note with (e := EvStrobeNeg) in R2. exact R2.
  - destruct HB as [HB|HB]; [contradiction|]. rewrite HB in H1.
    assert (T : (toggles_caps i = true /\ setup_tail i = [SCapslock]) \/
                (toggles_caps i = false /\ setup_tail i = [])).
    { kcases i; auto; contradiction. }
    destruct T as [[T1 T2]|[T1 T2]]; rewrite T1, T2; cbn [setup_run setup_step].
    + destruct (caps_sim _ _ H1) as [s2 (E2&R2)]. rewrite E2. cbn [bind]. eauto.
    + eauto.
Qed.

Lemma maps_len : forall k, length (maps_of k) = 4.
Proof. reflexivity. Qed.

Lemma select_sim : forall i a s, Rel a s ->
  exists s', keymaps_select i s = Ok s' /\ Rel (aselect i a) s'.
Proof.
  intros i a s H. unfold keymaps_select, aselect. rewrite (rl_cur _ _ H).
  destruct (i =? a_cur a)%N; eauto.
  destruct (N.ltb_spec i 6).
  - apply switch_sim; auto.
    + rewrite (rl_maps _ _ H). apply maps_len.
    + apply Rel_scan; auto.
    + apply (rl_log _ _ H).
  - unfold keymaps_switch, keymap_valid. destruct (N.ltb_spec i 6); [lia|]. eauto.
Qed.

Lemma set_bit_ok : forall k n, (k < 6)%N -> (n < 4)%N ->
  u8 (N.lor k (N.shiftl 1 n)) = N.setbit k n /\ u8 (N.ldiff k (N.shiftl 1 n)) = N.clearbit k n.
Proof.
  intros k n Hk Hn.
  assert (X : n = 0%N \/ n = 1%N \/ n = 2%N \/ n = 3%N) by lia.
  kcases k; destruct X as [X|[X|[X|X]]]; subst n; split; reflexivity.
Qed.

(** ** Actions *)
Lemma decode_mapsel : forall c n, decode c = AMapsel n -> (n < 4)%N.
Proof.
  intros c n. unfold decode.
  repeat match goal with |- context [if ?b then _ else _] => destruct b eqn:? end;
    intros E; inv E; lia.
Qed.
Lemma decode_vled : forall c n, decode c = AVled n -> 1 <= n <= 3.
Proof.
  intros c n. unfold decode.
  repeat match goal with |- context [if ?b then _ else _] => destruct b eqn:? end;
    intros E; inv E; lia.
Qed.
Lemma decode_vout : forall c n, decode c = AVout n -> 1 <= n <= 6.
Proof.
  intros c n. unfold decode.
  repeat match goal with |- context [if ?b then _ else _] => destruct b eqn:? end;
    intros E; inv E; lia.
Qed.
Lemma decode_fn : forall c n, decode c = AFn n -> 1 <= n <= 11.
Proof.
  intros c n. unfold decode.
  repeat match goal with |- context [if ?b then _ else _] => destruct b eqn:? end;
    intros E; inv E; lia.
Qed.

Lemma message_11 : forall k, message k 11 = None.
Proof. intros k. destruct k as [|p]; auto. do 3 (destruct p as [p|p|]; auto). Qed.
Lemma message_1 : forall k, message k 1 = None.
Proof. intros k. destruct k as [|p]; auto. do 3 (destruct p as [p|p|]; auto). Qed.

Lemma action_on_sim : forall c a s, Rel a s ->
  exists s', activate_action c s = Ok s' /\ Rel (aaction_on c a) s'.
Proof.
  intros c a s H. unfold activate_action, aaction_on.
  destruct (decode c) eqn:D.
  - destruct (hook_sim 1 a s H ltac:(lia)) as [s' [E F]]. rewrite message_1 in F. eauto.
  - apply set_shift_sim; auto.
  - unfold shiftlock_on_activate. rewrite <- (rl_mod _ _ H). apply (set_shift_sim _ a s H).
  - unfold shiftlock_toggle_activate. rewrite <- (rl_mod _ _ H). apply (set_shift_sim _ a s H).
  - apply caps_sim; auto.
  - unfold on_md, ctrl_activate. cbn [bind]. eexists. split; [reflexivity|]. apply ctrl_sim; auto.
  - unfold on_rep. rewrite (rl_rep _ _ H). eexists. split; [reflexivity|]. apply Rel_rep; auto.
  - destruct (hook_sim 1 a s H ltac:(lia)) as [s' [E F]]. rewrite message_1 in F. eauto.
  - unfold map_select_set. rewrite (rl_cur _ _ H).
    rewrite (proj1 (set_bit_ok _ n (rl_lt _ _ H) (decode_mapsel _ _ D))). apply select_sim; auto.
  - unfold on_rep. rewrite (rl_rep _ _ H). eexists. split; [reflexivity|]. apply Rel_rep; auto.
  - eexists. split; [reflexivity|]. apply Rel_note; auto.
  - apply decode_vled in D. replace (VLED1 + n - 1) with (6 + n) by (unfold VLED1; lia).
    apply activate_sim; auto; lia.
  - apply decode_vout in D. replace (VOUT1 + n - 1) with n by (unfold VOUT1; lia).
    apply activate_sim; auto; lia.
  - apply decode_fn in D. destruct (Nat.leb_spec n 10).
    + replace (HOOK_USER_1 + n - 1) with (4 + n) by (unfold HOOK_USER_1; lia).
      apply hook_sim; auto.
    + assert (n = 11) by lia. subst n. rewrite message_11. eauto.
  - eauto.
Qed.

Lemma action_off_sim : forall c a s, Rel a s ->
  exists s', deactivate_action c s = Ok s' /\ Rel (aaction_off c a) s'.
Proof.
  intros c a s H. unfold deactivate_action, aaction_off.
  destruct (decode c) eqn:D; try (eexists; split; [reflexivity|]; exact H).
  - apply set_shift_sim; auto.
  - unfold on_md, ctrl_deactivate. cbn [bind]. eexists. split; [reflexivity|]. apply ctrl_sim; auto.
  - unfold on_rep. rewrite (rl_rep _ _ H). eexists. split; [reflexivity|]. apply Rel_rep; auto.
  - unfold map_select_clear. rewrite (rl_cur _ _ H).
    rewrite (proj2 (set_bit_ok _ n (rl_lt _ _ H) (decode_mapsel _ _ D))). apply select_sim; auto.
  - unfold on_rep. rewrite (rl_rep _ _ H). eexists. split; [reflexivity|]. apply Rel_rep; auto.
  - eexists. split; [reflexivity|]. apply Rel_note; auto.
Qed.

(** ** Keys *)
Lemma press_sim : forall c a s, Rel a s ->
  exists s', activate_key c s = Ok s' /\ Rel (apress c a) s'.
Proof.
  intros c a s H. unfold activate_key, apress, ASDF_ACTION.
  destruct (0xA0 <? c)%N; [apply action_on_sim; auto|].
  unfold put_code. rewrite (rl_hkey _ _ H).
  destruct (put_key c _ _ _ (rl_buf _ _ H)) as [b [E F]]. rewrite E. cbn [bind].
  change (k_last (set_buf b s)) with (k_last s). rewrite (rl_last _ _ H).
  assert (R1 : Rel (put_qk (qput 16 c (a_qk a)) a) (set_buf b s)) by (apply Rel_buf_k; auto).
  destruct (a_last a =? c)%N; eauto.
  unfold on_rep. eexists. split; [reflexivity|].
  cbn [a_rep put_qk k_rep set_last set_buf]. rewrite (rl_rep _ _ H).
  apply Rel_rep. apply Rel_last. auto.
Qed.

Lemma release_sim : forall c a s, Rel a s ->
  exists s', deactivate_key c s = Ok s' /\ Rel (arelease c a) s'.
Proof.
  intros c a s H. unfold deactivate_key, arelease, ASDF_ACTION.
  destruct (0xA0 <? c)%N; [apply action_off_sim; auto|].
  rewrite (rl_last _ _ H). destruct (a_last a =? c)%N; eauto.
  eexists. split; [reflexivity|]. apply Rel_last; auto.
Qed.

Lemma map_now_ok : forall m, modifier_index m = Ok (map_now m).
Proof.
  intros m. unfold modifier_index, map_now.
  destruct (m_shift m =? 0)%N, (m_caps m =? 0)%N, (m_ctrl m =? 0)%N; reflexivity.
Qed.
Lemma map_now_lt : forall m, map_now m < 4.
Proof.
  intros m. unfold map_now.
  destruct (negb (m_ctrl m =? 0)%N); [lia|]. destruct (negb (m_shift m =? 0)%N); [lia|].
  destruct (negb (m_caps m =? 0)%N); lia.
Qed.

Lemma maps_nth : forall k m, m < 4 ->
  nth_error (maps_of k) m = Some (mkKmap (Some (table k m)) (nrows k) 8).
Proof. intros. do 4 (destruct m as [|m]; [reflexivity|]). lia. Qed.

Lemma table_length : forall k m, (k < 4)%N -> length (table k m) = 72.
Proof.
  intros k m H. assert (X : k = 0%N \/ k = 1%N \/ k = 2%N \/ k = 3%N) by lia.
  destruct X as [X|[X|[X|X]]]; subst k; do 3 (destruct m as [|m]; [reflexivity|]); reflexivity.
Qed.

Lemma rows_9 : forall k, (k < 4)%N -> nrows k = 9.
Proof.
  intros k H. assert (X : k = 0%N \/ k = 1%N \/ k = 2%N \/ k = 3%N) by lia.
  destruct X as [X|[X|[X|X]]]; subst k; reflexivity.
Qed.
Lemma rows_ge : forall k, (k < 6)%N -> 9 <= nrows k <= 13.
Proof. intros k H. kcases k; cbn; lia. Qed.

Lemma lookup_sim : forall r c a s, Rel a s -> c < 8 -> r < nrows (a_cur a) ->
  sim (fun x y => x = y) (acode r c a) (lookup_keycode r c s).
Proof.
  intros r c a s H Hc Hr. unfold lookup_keycode, get_code, acode.
  rewrite (rl_mod _ _ H), map_now_ok. cbn [bind]. rewrite (rl_cur _ _ H), (rl_maps _ _ H).
  destruct (N.ltb_spec (a_cur a) 4).
  - pose proof (map_now_lt (a_mod a)) as HL.
    rewrite (proj2 (lget_ok _ _ _ _ _) (maps_nth (a_cur a) (N.to_nat (a_cur a)) ltac:(lia))).
    cbn [bind km_cols km_rows]. rewrite rows_9 in * by auto. cbn [Nat.eqb negb andb].
    rewrite (proj2 (lget_ok _ _ _ _ _) (maps_nth (a_cur a) _ HL)). cbn [bind km_matrix].
    cbn [sim]. exists (code_at (a_cur a) (map_now (a_mod a)) r c). split; auto.
    apply lget_ok. unfold code_at. apply nth_error_nth'. rewrite table_length by auto. lia.
  - cbn [sim]. unfold lget.
    replace (nth_error (maps_of (a_cur a)) (N.to_nat (a_cur a))) with (@None kmap); auto.
    symmetry. apply nth_error_None. rewrite maps_len. lia.
Qed.

Lemma held_sim : forall c a s, Rel a s ->
  forall r k, lookup_keycode r k s = Ok c ->
  exists s', handle_held r k s = Ok s' /\ Rel (aheld c a) s'.
Proof.
  intros c a s H r k E. unfold handle_held, aheld. rewrite E. cbn [bind].
  rewrite (rl_last _ _ H), (rl_rep _ _ H).
  destruct (N.eqb_spec c (a_last a)); eauto.
  destruct (repeat_tick (a_rep a)) as [due rp].
  assert (R1 : Rel (put_rep rp a) (set_rep rp s)) by (apply Rel_rep; auto).
  destruct due.
  - change (k_last (set_rep rp s)) with (k_last s). rewrite (rl_last _ _ H), <- e.
    apply press_sim; auto.
  - eauto.
Qed.

(** Updating one accepted bit. *)
Lemma bits_set : forall b r c (f : nat -> nat -> bool), (b < 256)%N -> c < 8 ->
  (forall k, k < 8 -> N.testbit b (N.of_nat k) = f r k) ->
  forall now : bool,
  let b' := if now then N.lor b (N.shiftl 1 (N.of_nat c)) else N.ldiff b (N.shiftl 1 (N.of_nat c)) in
  (b' < 256)%N /\ forall k, k < 8 -> N.testbit b' (N.of_nat k) = set2 f r c now r k.
Proof.
  intros b r c f Hb Hc HF now b'.
  assert (HS : forall k, N.testbit (N.shiftl 1 (N.of_nat c)) (N.of_nat k) = (k =? c)).
  { intros k. rewrite N.shiftl_1_l, N.pow2_bits_eqb. lia. }
  assert (HT : forall k, N.testbit b' (N.of_nat k) = if k =? c then now else N.testbit b (N.of_nat k)).
  { intros k. subst b'. destruct now.
    - rewrite N.lor_spec, HS. destruct (k =? c); [apply orb_true_r | apply orb_false_r].
    - rewrite N.ldiff_spec, HS. destruct (k =? c); [apply andb_false_r | apply andb_true_r]. }
  split.
  - destruct (N.eq_dec b' 0) as [Z|Z]; [rewrite Z; lia|].
    apply N.log2_lt_pow2 with (b := 8%N); [lia|].
    destruct (N.ltb_spec (N.log2 b') 8); auto. exfalso.
    pose proof (N.bit_log2 b' Z) as HB.
    rewrite <- (N2Nat.id (N.log2 b')) in HB. rewrite HT in HB.
    destruct (Nat.eqb_spec (N.to_nat (N.log2 b')) c); [lia|].
    rewrite N2Nat.id in HB.
    assert (N.testbit b (N.log2 b') = false); [|congruence].
    destruct (N.eq_dec b 0) as [Zb|Zb]; [rewrite Zb; apply N.bits_0|].
    apply N.bits_above_log2. apply N.log2_lt_pow2; [lia|].
    apply N.lt_le_trans with 256%N; auto. change 256%N with (2 ^ 8)%N.
    apply N.pow_le_mono_r; lia.
  - intros k Hk. rewrite HT. unfold set2. rewrite Nat.eqb_refl. cbn [andb].
    destruct (k =? c); auto.
Qed.

Lemma Rel_ct : forall a s r c v, Rel a s -> r < 16 -> c < 8 -> (1 <= v <= 10)%N ->
  Rel (put_ct (set2 (a_ct a) r c v) a) (set_cnt (upd (k_cnt s) (r * 8 + c) v) s).
Proof.
  intros a s r c v H Hr Hc Hv. rel H. constructor; auto.
  - cbn. rewrite upd_length; auto.
  - cbn. intros r' c' v' Hc' E. rewrite nth_error_upd in E. unfold set2.
    destruct (Nat.eqb_spec (r * 8 + c) (r' * 8 + c')) as [e|n]; cbn [andb] in E.
    + assert (r' = r /\ c' = c) as [-> ->] by lia. rewrite !Nat.eqb_refl. cbn.
      rewrite (proj2 (Nat.ltb_lt _ _)) in E by lia. inv E. auto.
    + replace ((r' =? r) && (c' =? c)) with false by lia. apply Q4; auto.
Qed.

Lemma Rel_dn : forall a s r c now b, Rel a s -> r < 16 -> c < 8 ->
  nth_error (k_stable s) r = Some b ->
  Rel (put_dn (set2 (a_dn a) r c now) a)
      (set_stable (upd (k_stable s) r
         (if (now : bool) then N.lor b (N.shiftl 1 (N.of_nat c)) else N.ldiff b (N.shiftl 1 (N.of_nat c)))) s).
Proof.
  intros a s r c now b H Hr Hc E. rel H. destruct (Q2 _ _ E) as [B1 B2].
  destruct (bits_set b r c (a_dn a) B1 Hc B2 now) as [B3 B4].
  constructor; auto.
  - cbn. rewrite upd_length; auto.
  - cbn. intros r' b' E'. rewrite nth_error_upd in E'.
    destruct (Nat.eqb_spec r r').
    + subst r'. rewrite (proj2 (Nat.ltb_lt _ _)) in E' by lia. cbn [andb] in E'. inv E'. auto.
    + cbn [andb] in E'. destruct (Q2 _ _ E') as [A1 A2]. split; auto.
      intros k Hk. rewrite A2 by auto. unfold set2.
      replace (r' =? r) with false by lia. reflexivity.
Qed.

(** One key. *)
Definition one_key (r c : nat) (now was : bool) (s : kb) : outcome kb :=
  if xorb now was then handle_change r c now s
  else if now then handle_held r c s else Ok s.

Lemma change_sim : forall now r c a s, Rel a s -> r < nrows (a_cur a) -> c < 8 ->
  sim Rel
   (if (a_ct a r c =? 1)%N then
      let a1 := put_dn (set2 (a_dn a) r c now) (put_ct (set2 (a_ct a) r c 10%N) a) in
      obind (acode r c a1) (fun code => Some (if now then apress code a1 else arelease code a1))
    else Some (put_ct (set2 (a_ct a) r c (a_ct a r c - 1)%N) a))
   (handle_change r c now s).
Proof.
  intros now r c a s H Hr Hc. pose proof (rows_ge _ (rl_lt _ _ H)) as HG.
  assert (HL : r * 8 + c < length (k_cnt s)) by (rewrite (rl_cntlen _ _ H); lia).
  destruct (nth_error_ex _ _ _ HL) as [v EV]. destruct (rl_cnt _ _ H r c v Hc EV) as [EQ BV].
  unfold handle_change, cnt_get, cnt_set. change max_cols with 8.
  rewrite (proj2 (Nat.ltb_lt _ _) Hc). rewrite (proj2 (lget_ok _ _ _ _ _) EV). cbn [bind].
  rewrite lset_ok by auto. cbn [bind].
  assert (EU : u8 (v + 255) = (v - 1)%N).
  { unfold u8. replace (v + 255)%N with ((v - 1) + 1 * 256)%N by lia.
    rewrite N.mod_add by lia. apply N.mod_small. lia. }
  rewrite EU. rewrite <- EQ.
  destruct (N.eqb_spec v 1).
  - replace (v - 1 =? 0)%N with true by lia.
    cbn [k_cnt set_cnt]. rewrite lset_ok by (rewrite upd_length; auto). cbn [bind].
    rewrite upd_upd. fold (set_cnt (upd (k_cnt s) (r * 8 + c) DEBOUNCE) s).
    set (s1 := set_cnt _ _) at 1.
    assert (E1 : s1 = set_cnt (upd (k_cnt s) (r * 8 + c) 10%N) s) by reflexivity.
    assert (R1 : Rel (put_ct (set2 (a_ct a) r c 10%N) a) s1).
    { rewrite E1. apply Rel_ct; auto; lia. }
    change (k_stable (set_cnt (upd (k_cnt s) (r * 8 + c) DEBOUNCE) s)) with (k_stable s1).
    assert (HS : r < length (k_stable s1)) by (rewrite (rl_stlen _ _ R1); lia).
    destruct (nth_error_ex _ _ _ HS) as [b EB].
    rewrite (proj2 (lget_ok _ _ _ _ _) EB). cbn [bind].
    pose proof (Rel_dn _ _ r c now b R1 ltac:(lia) Hc EB) as R2.
    destruct now; rewrite lset_ok by auto; cbn [bind].
    + eapply sim_bind; [apply (lookup_sim r c _ _ R2 Hc); auto|].
      intros x y <-. apply press_sim. exact R2.
    + eapply sim_bind; [apply (lookup_sim r c _ _ R2 Hc); auto|].
      intros x y <-. apply release_sim. exact R2.
  - replace (v - 1 =? 0)%N with false by lia. cbn [sim].
    eexists. split; [reflexivity|]. apply Rel_ct; auto; lia.
Qed.

Lemma key_sim : forall rd r c a s, Rel a s -> r < nrows (a_cur a) -> c < 8 ->
  sim Rel (key_step rd r c a) (one_key r c (reading rd r c) (a_dn a r c) s).
Proof.
  intros rd r c a s H Hr Hc. unfold key_step, one_key. set (now := reading rd r c). clearbody now.
  replace (xorb now (a_dn a r c)) with (negb (Bool.eqb now (a_dn a r c)))
    by (destruct now, (a_dn a r c); reflexivity).
  destruct (Bool.eqb now (a_dn a r c)); cbn [negb].
  - destruct now.
    + pose proof (lookup_sim r c a s H Hc Hr) as L. destruct (acode r c a) as [code|]; cbn [obind sim] in *.
      * destruct L as [x [E <-]]. apply held_sim with (r := r) (k := c) (c := code) in H; auto.
      * unfold handle_held. rewrite L. reflexivity.
    + cbn [sim]. eauto.
  - apply change_sim; auto.
Qed.

(** The accepted state of the other keys is not touched. *)
Lemma aset_shift_dn : forall x a, a_dn (aset_shift x a) = a_dn a /\ a_ct (aset_shift x a) = a_ct a.
Proof. intros. unfold aset_shift, aact. destruct (spec_action _ _ _). auto. Qed.
Lemma acaps_dn : forall a, a_dn (atoggle_caps a) = a_dn a /\ a_ct (atoggle_caps a) = a_ct a.
Proof. intros. unfold atoggle_caps, aact. destruct (spec_action _ _ _). auto. Qed.
Lemma aact_dn : forall f v a, a_dn (aact f v a) = a_dn a /\ a_ct (aact f v a) = a_ct a.
Proof. intros. unfold aact. destruct (spec_action _ _ _). auto. Qed.
Lemma aswitch_dn : forall i a, a_dn (aswitch i a) = a_dn a /\ a_ct (aswitch i a) = a_ct a.
Proof.
  intros. unfold aswitch. cbn zeta.
  destruct (acaps_dn (note EvArchInit (put_lev (lev (wiring i)) (put_cur i a)))) as [D1 D2].
  destruct (toggles_caps i), (i =? 4)%N; cbn [a_dn a_ct note put_log]; rewrite ?D1, ?D2; auto.
Qed.
Lemma aselect_dn : forall i a, a_dn (aselect i a) = a_dn a /\ a_ct (aselect i a) = a_ct a.
Proof.
  intros. unfold aselect. destruct (i =? a_cur a)%N; auto. destruct (i <? 6)%N; auto. apply aswitch_dn.
Qed.
Lemma aon_dn : forall c a, a_dn (aaction_on c a) = a_dn a /\ a_ct (aaction_on c a) = a_ct a.
Proof.
  intros. unfold aaction_on. destruct (decode c);
    auto using aset_shift_dn, acaps_dn, aact_dn, aselect_dn.
  destruct (message _ _); auto.
Qed.
Lemma aoff_dn : forall c a, a_dn (aaction_off c a) = a_dn a /\ a_ct (aaction_off c a) = a_ct a.
Proof.
  intros. unfold aaction_off. destruct (decode c);
    auto using aset_shift_dn, acaps_dn, aact_dn, aselect_dn.
Qed.
Lemma apress_dn : forall c a, a_dn (apress c a) = a_dn a /\ a_ct (apress c a) = a_ct a.
Proof.
  intros. unfold apress. destruct (0xA0 <? c)%N; [apply aon_dn|].
  destruct (a_last a =? c)%N; auto.
Qed.
Lemma arelease_dn : forall c a, a_dn (arelease c a) = a_dn a /\ a_ct (arelease c a) = a_ct a.
Proof.
  intros. unfold arelease. destruct (0xA0 <? c)%N; [apply aoff_dn|].
  destruct (a_last a =? c)%N; auto.
Qed.
Lemma aheld_dn : forall c a, a_dn (aheld c a) = a_dn a /\ a_ct (aheld c a) = a_ct a.
Proof.
  intros. unfold aheld. destruct (c =? a_last a)%N; auto.
  destruct (repeat_tick _) as [[] r]; auto. destruct (apress_dn c (put_rep r a)) as [-> ->]; auto.
Qed.

Lemma key_step_frame : forall rd r c a a' r' c', key_step rd r c a = Some a' ->
  (r' <> r \/ c' <> c) -> a_dn a' r' c' = a_dn a r' c' /\ a_ct a' r' c' = a_ct a r' c'.
Proof.
  intros rd r c a a' r' c' H HN.
  assert (X : (r' =? r) && (c' =? c) = false) by (destruct HN; lia).
  unfold key_step in H. destruct (Bool.eqb _ _).
  - destruct (reading rd r c).
    + destruct (acode r c a); cbn in H; inv H. destruct (aheld_dn n a) as [-> ->]; auto.
    + inv H; auto.
  - destruct (a_ct a r c =? 1)%N.
    + cbn zeta in H. destruct (acode r c _) as [code|]; cbn [obind] in H; inv H.
      destruct (reading rd r c);
        [match goal with |- context [apress ?x ?y] => destruct (apress_dn x y) as [-> ->] end
        |match goal with |- context [arelease ?x ?y] => destruct (arelease_dn x y) as [-> ->] end];
        cbn; unfold set2; rewrite X; auto.
    + inv H. cbn. unfold set2. rewrite X. auto.
Qed.

Lemma key_step_rows : forall rd r c a a', key_step rd r c a = Some a' ->
  (a_cur a < 6)%N -> (a_cur a' < 6)%N /\ (4 <= a_cur a -> a_cur a' = a_cur a)%N.
Proof.
  intros rd r c a a' H HL.
  assert (SEL : forall i x, (a_cur x < 6)%N -> (a_cur (aselect i x) < 6)%N).
  { intros i x Hx. unfold aselect. destruct (i =? a_cur x)%N; auto. destruct (N.ltb_spec i 6); auto.
    unfold aswitch, atoggle_caps, aact.
    destruct (toggles_caps i), (i =? 4)%N; cbn; auto; destruct (spec_action _ _ _); cbn; auto. }
  assert (ON : forall k x, (a_cur x < 6)%N -> (a_cur (aaction_on k x) < 6)%N).
  { intros k x Hx. unfold aaction_on, aset_shift, atoggle_caps. destruct (decode k); auto;
      cbn; rewrite ?aact_cur; auto. destruct (message _ _); auto. }
  assert (OFF : forall k x, (a_cur x < 6)%N -> (a_cur (aaction_off k x) < 6)%N).
  { intros k x Hx. unfold aaction_off, aset_shift. destruct (decode k); auto;
      cbn; rewrite ?aact_cur; auto. }
  assert (PR : forall k x, (a_cur x < 6)%N -> (a_cur (apress k x) < 6)%N).
  { intros k x Hx. unfold apress. destruct (0xA0 <? k)%N; auto. destruct (a_last x =? k)%N; auto. }
  assert (RE : forall k x, (a_cur x < 6)%N -> (a_cur (arelease k x) < 6)%N).
  { intros k x Hx. unfold arelease. destruct (0xA0 <? k)%N; auto. destruct (a_last x =? k)%N; auto. }
  assert (HE : forall k x, (a_cur x < 6)%N -> (a_cur (aheld k x) < 6)%N).
  { intros k x Hx. unfold aheld. destruct (k =? a_last x)%N; auto.
    destruct (repeat_tick _) as [[] q]; auto. }
  unfold key_step in H. destruct (Bool.eqb _ _).
  - destruct (reading rd r c).
    + unfold acode in H. destruct (N.ltb_spec (a_cur a) 4); cbn in H; inv H. split; auto. intros; lia.
    + inv H; auto.
  - destruct (a_ct a r c =? 1)%N.
    + cbn zeta in H. unfold acode in H. cbn [a_cur put_dn put_ct] in H.
      destruct (N.ltb_spec (a_cur a) 4); cbn [obind] in H; inv H. split; [|intros; lia].
      destruct (reading rd r c); [apply PR | apply RE]; auto.
    + inv H. auto.
Qed.

(** ** One row *)
Lemma num_cols_ok : forall a s, Rel a s -> num_cols s = Ok 8.
Proof.
  intros a s H. unfold num_cols, active_map. rewrite (rl_mod _ _ H), map_now_ok. cbn [bind].
  rewrite (rl_maps _ _ H).
  rewrite (proj2 (lget_ok _ _ _ _ _) (maps_nth (a_cur a) _ (map_now_lt _))). reflexivity.
Qed.
Lemma num_rows_ok : forall a s, Rel a s -> num_rows s = Ok (nrows (a_cur a)).
Proof.
  intros a s H. unfold num_rows, active_map. rewrite (rl_mod _ _ H), map_now_ok. cbn [bind].
  rewrite (rl_maps _ _ H).
  rewrite (proj2 (lget_ok _ _ _ _ _) (maps_nth (a_cur a) _ (map_now_lt _))). reflexivity.
Qed.

Lemma odd_shiftr : forall x k, N.odd (N.shiftr x k) = N.testbit x k.
Proof. intros. rewrite <- N.bit0_odd, N.shiftr_spec by lia. auto. Qed.

Lemma div2_shiftr : forall x k, N.div2 (N.shiftr x (N.of_nat k)) = N.shiftr x (N.of_nat (S k)).
Proof.
  intros. rewrite N.div2_spec, N.shiftr_shiftr. f_equal. lia.
Qed.

Lemma u8_bit : forall x k, k < 8 -> N.testbit (u8 x) (N.of_nat k) = N.testbit x (N.of_nat k).
Proof. intros. unfold u8. change 256%N with (2 ^ 8)%N. apply N.mod_pow2_bits_low. lia. Qed.

Lemma cols_sim : forall n col rd r a s st fuel, Rel a s -> r < 9 \/ (4 <= a_cur a)%N /\ r < nrows (a_cur a) ->
  n + col = 8 -> n < fuel ->
  (forall k, col <= k < 8 -> N.testbit st (N.of_nat k) = a_dn a r k) ->
  sim Rel (keys_step rd (map (pair r) (seq col n)) a)
    (cols_loop fuel r col (N.shiftr (u8 (rd r)) (N.of_nat col))
       (N.shiftr (N.lxor (u8 (rd r)) st) (N.of_nat col)) s).
Proof.
  induction n as [|n IH]; intros col rd r a s st fuel H Hr HN HF HST.
  - destruct fuel; [lia|]. cbn [cols_loop]. rewrite (num_cols_ok _ _ H). cbn [bind].
    replace (col <? 8) with false by lia. cbn [map seq keys_step sim]. eauto.
  - destruct fuel; [lia|]. cbn [cols_loop]. rewrite (num_cols_ok _ _ H). cbn [bind].
    replace (col <? 8) with true by lia. cbn [map seq keys_step].
    rewrite !div2_shiftr, !odd_shiftr.
    pose proof (rows_ge _ (rl_lt _ _ H)) as HG.
    assert (K := key_sim rd r col a s H ltac:(lia) ltac:(lia)). unfold one_key in K.
    replace (N.testbit (u8 (rd r)) (N.of_nat col)) with (reading rd r col)
      by (unfold reading; rewrite u8_bit by lia; auto).
    replace (N.testbit (N.lxor (u8 (rd r)) st) (N.of_nat col))
      with (xorb (reading rd r col) (a_dn a r col)).
    2:{ rewrite N.lxor_spec, u8_bit by lia. rewrite HST by lia. reflexivity. }
    destruct (key_step rd r col a) as [a1|] eqn:EK; cbn [sim obind] in *.
    + destruct K as [s1 [E1 R1]]. rewrite E1. cbn [bind].
      destruct (key_step_rows _ _ _ _ _ EK (rl_lt _ _ H)) as [C1 C2].
      apply IH; auto; try lia.
      * destruct Hr as [Hr|[Hr1 Hr2]]; [left; auto|]. right. rewrite C2; auto.
      * intros k Hk. rewrite HST by lia. symmetry.
        eapply (key_step_frame rd r col a a1 r k EK). lia.
    + rewrite K. reflexivity.
Qed.

Lemma grid_cons : forall r n, grid r (S n) = map (pair r) (seq 0 8) ++ grid (S r) n.
Proof. reflexivity. Qed.

Lemma keys_app : forall rd p q a, keys_step rd (p ++ q) a = obind (keys_step rd p a) (keys_step rd q).
Proof.
  induction p as [|[r c] p IH]; cbn; intros; auto. destruct (key_step rd r c a); cbn; auto.
Qed.

Lemma row_sim : forall rd r a s, Rel a s -> r < 9 \/ (4 <= a_cur a)%N /\ r < nrows (a_cur a) ->
  sim Rel (keys_step rd (map (pair r) (seq 0 8)) a)
    (st <- lget UScanOob (k_stable s) r ;; cols_loop 256 r 0 (u8 (rd r)) (N.lxor (u8 (rd r)) st) s).
Proof.
  intros rd r a s H Hr. pose proof (rows_ge _ (rl_lt _ _ H)) as HG.
  assert (HS : r < length (k_stable s)) by (rewrite (rl_stlen _ _ H); lia).
  destruct (nth_error_ex _ _ _ HS) as [b EB].
  rewrite (proj2 (lget_ok _ _ _ _ _) EB). cbn [bind].
  assert (X := cols_sim 8 0 rd r a s b 256 H Hr eq_refl ltac:(apply Nat.ltb_lt; reflexivity)).
  change (N.of_nat 0) with 0%N in X. rewrite !N.shiftr_0_r in X. apply X.
  intros k Hk. apply (rl_stable _ _ H _ _ EB). lia.
Qed.

Lemma keys_cur_high : forall rd ps a a', keys_step rd ps a = Some a' -> (a_cur a < 6)%N ->
  (a_cur a' < 6)%N /\ ((4 <= a_cur a)%N -> a_cur a' = a_cur a).
Proof.
  induction ps as [|[r c] ps IH]; cbn; intros a a' H HL.
  - inv H; auto.
  - destruct (key_step rd r c a) as [a1|] eqn:E; [|discriminate]. cbn in H.
    destruct (key_step_rows _ _ _ _ _ E HL) as [C1 C2]. destruct (IH _ _ H C1) as [D1 D2].
    split; auto. intros X. rewrite D2, C2; auto. rewrite C2; auto.
Qed.

Lemma rows_loop_step : forall f rd row s,
  rows_loop (S f) rd row s =
  (nr <- num_rows s ;;
   if row <? nr then
     s1 <- (st <- lget UScanOob (k_stable s) row ;;
            cols_loop 256 row 0 (u8 (rd row)) (N.lxor (u8 (rd row)) st) s) ;;
     rows_loop f rd (S row) s1
   else Ok s).
Proof.
  intros. cbn [rows_loop]. destruct (num_rows s); cbn [bind]; auto. destruct (row <? a); auto.
  destruct (lget UScanOob (k_stable s) row); auto.
Qed.

(** The rows beyond the ninth. *)
Lemma rows_high : forall n row fuel rd a s, Rel a s -> n + row = nrows (a_cur a) -> n < fuel -> 9 <= row ->
  sim Rel (keys_step rd (grid row n) a) (rows_loop fuel rd row s).
Proof.
  induction n as [|n IH]; intros row fuel rd a s H HN HF HR; (destruct fuel; [lia|]); rewrite rows_loop_step;
    rewrite (num_rows_ok _ _ H); cbn [bind].
  - replace (row <? nrows (a_cur a)) with false by lia. cbn. eauto.
  - replace (row <? nrows (a_cur a)) with true by lia. rewrite grid_cons, keys_app.
    assert (HK : (4 <= a_cur a)%N).
    { destruct (N.leb_spec 4 (a_cur a)); auto. rewrite rows_9 in HN by auto. lia. }
    assert (HQ : row < nrows (a_cur a)) by lia.
    assert (RS := row_sim rd row a s H (or_intror (conj HK HQ))).
    destruct (keys_step rd (map (pair row) (seq 0 8)) a) as [a1|] eqn:EK; cbn [sim obind] in *.
    + destruct RS as [s1 [E1 R1]]. rewrite E1. cbn [bind].
      destruct (keys_cur_high _ _ _ _ EK (rl_lt _ _ H)) as [_ C2].
      apply IH; auto; try lia. rewrite C2; auto; lia.
    + rewrite RS. reflexivity.
Qed.

Lemma rows_sim : forall n row fuel rd a s, Rel a s -> n + row = 9 -> n + 5 < fuel ->
  sim Rel (obind (keys_step rd (grid row n) a) (fun a1 => keys_step rd (grid 9 (nrows (a_cur a1) - 9)) a1))
    (rows_loop fuel rd row s).
Proof.
  induction n as [|n IH]; intros row fuel rd a s H HN HF.
  - cbn [grid seq list_prod keys_step obind].
    pose proof (rows_ge _ (rl_lt _ _ H)) as HG.
    replace row with 9 by lia. apply rows_high; auto; lia.
  - destruct fuel; [lia|]. rewrite rows_loop_step, (num_rows_ok _ _ H). cbn [bind].
    pose proof (rows_ge _ (rl_lt _ _ H)) as HG.
    replace (row <? nrows (a_cur a)) with true by lia. rewrite grid_cons, keys_app.
    assert (HQ : row < 9) by lia.
    assert (RS := row_sim rd row a s H (or_introl HQ)).
    destruct (keys_step rd (map (pair row) (seq 0 8)) a) as [a1|] eqn:EK; cbn [sim obind] in *.
    + destruct RS as [s1 [E1 R1]]. rewrite E1. cbn [bind]. apply IH; auto; lia.
    + rewrite RS. reflexivity.
Qed.

(** ** Scan, tick, run *)
Lemma scan_sim : forall rd a s, Rel a s -> sim Rel (ascan rd a) (keyscan rd s).
Proof.
  intros rd a s H. unfold keyscan, ascan.
  assert (HG : hook_get HOOK_ROW_SCANNER (k_hook s) = Ok HReadRow) by (rewrite (rl_hook _ _ H); reflexivity).
  rewrite HG. cbn [bind].
  assert (HE : hook_execute HOOK_EACH_SCAN s = Ok s).
  { unfold hook_execute. rewrite (rl_hook _ _ H). reflexivity. }
  rewrite HE. cbn [bind]. apply rows_sim; auto.
  apply Nat.ltb_lt. reflexivity.
Qed.

Lemma send_sim : forall a s, Rel a s ->
  exists s', ('(code, s1) <- next_code s ;;
              if (code <? INVALID)%N then output code s1 else Ok s1) = Ok s' /\ Rel (asend a) s'.
Proof.
  intros a s H. unfold next_code, asend. rewrite (rl_hmsg _ _ H), (rl_hkey _ _ H), (rl_delay _ _ H).
  destruct (get_msg _ _ _ (rl_buf _ _ H)) as [b [E F]]. rewrite E. cbn [bind].
  pose proof (rl_qm _ _ H) as HQ. destruct (a_qm a) as [|c q] eqn:EQ.
  - cbn [hd tl] in *. rewrite N.eqb_refl.
    destruct (get_key _ _ _ F) as [b2 [E2 F2]]. rewrite E2. cbn [bind].
    destruct (a_qk a) as [|c q] eqn:EK; cbn [hd tl] in *.
    + cbn [N.ltb N.compare INVALID]. rewrite N.ltb_irrefl. eexists; split; [reflexivity|].
      assert (R1 := Rel_buf_k a s b2 [] H). rewrite EQ in R1. specialize (R1 F2).
      assert (EA : put_qk [] a = a) by (rewrite <- EK; destruct a; reflexivity).
      rewrite EA in R1. exact R1.
    + assert (R1 : Rel (put_qk q a) (set_buf b2 s)).
      { apply Rel_buf_k; auto. rewrite EQ. auto. }
      unfold INVALID. destruct (c <? 160)%N.
      * assert (HG : hook_get HOOK_OUTPUT (k_hook (set_buf b2 s)) = Ok HSend)
          by (cbn [k_hook set_buf]; rewrite (rl_hook _ _ H); reflexivity).
        unfold output. rewrite HG. cbn [bind]. eexists. split; [reflexivity|]. apply Rel_note; auto.
      * eauto.
  - cbn [hd tl] in *. inv HQ. unfold INVALID.
    replace (c =? 160)%N with false by lia. cbn [bind].
    replace (c <? 160)%N with true by lia.
    assert (HG : hook_get HOOK_OUTPUT (k_hook (emit_kb (EvDelayMs 40) (set_buf b s))) = Ok HSend)
      by (cbn [k_hook set_buf emit_kb set_dev]; rewrite (rl_hook _ _ H); reflexivity).
    unfold output. rewrite HG. cbn [bind]. eexists. split; [reflexivity|].
    apply Rel_note. apply Rel_note. apply Rel_buf_m; auto.
Qed.

Lemma tick_sim : forall rd a s, Rel a s -> sim Rel (atick rd a) (tick rd s).
Proof.
  intros rd a s H. unfold tick, atick. destruct (send_sim a s H) as [s' [E F]].
  destruct (next_code s) as [[code s1]|u]; [|discriminate]. cbn [bind] in *.
  rewrite E. cbn [bind]. apply scan_sim; auto.
Qed.

Lemma ticks_sim : forall rds a s, Rel a s -> sim Rel (aticks rds a) (ticks rds s).
Proof.
  induction rds as [|rd rds IH]; intros a s H; cbn [aticks ticks].
  - cbn. eauto.
  - eapply sim_bind; [apply tick_sim; eauto|]. intros. apply IH; auto.
Qed.

(** Initialisation from any previous contents of the static variables. *)
Definition storage_ok (s : kb) : Prop := wf_storage (k_buf s) /\ length (k_maps s) = 4.

Lemma init_sim : forall s, storage_ok s ->
  exists s', init s = Ok s' /\ Rel (ainit (k_mod s) (log (k_dev s))) s'.
Proof.
  intros s [HW HM]. unfold init. cbn [bind on_rep].
  set (s3 := set_rep _ _).
  destruct (switch_tables 0 s3 ltac:(lia) HM) as [d (A&B&C)].
  unfold keymaps_init. rewrite C. cbn [setup_tail setup_run bind].
  set (s4 := set_cur 0 _).
  assert (HB : k_buf s4 = buffer_init (k_buf s)) by reflexivity. rewrite HB.
  assert (R0 := R_init _ HW).
  destruct (step_refines (BNew 16) _ _ R0 ltac:(cbn; lia)) as [b1 [E1 R1]].
  cbn [buf_step] in E1. apply bind_ok in E1. destruct E1 as [[h1 b1'] [E1 E1']].
  cbn in E1'. inv E1'. rewrite E1. cbn [bind].
  destruct (step_refines (BNew 128) _ _ R1 ltac:(cbn; lia)) as [b2 [E2 R2]].
  cbn [buf_step] in E2. apply bind_ok in E2. destruct E2 as [[h2 b2'] [E2 E2']].
  cbn in E2'. inv E2'. rewrite E2. cbn [bind].
  eexists. split; [reflexivity|]. cbn in R2.
  constructor; auto; cbn [k_stable k_cnt k_last k_hkey k_hmsg k_delay k_buf k_rep k_mod k_dev k_hook k_maps k_cur
     set_cnt set_stable set_handles set_buf].
  - intros r b E. cbn in E. apply (nth_error_repeat_inv _ 0%N b 16 r) in E. subst b. split; [lia|].
    intros. apply N.bits_0.
  - intros r c v Hc E. apply nth_error_repeat_inv in E. subst v. cbn. unfold DEBOUNCE. lia.
  - cbn. lia.
  - constructor.
Qed.

Lemma boot_sim : exists s, boot = Ok s /\ Rel aboot s.
Proof.
  assert (H : storage_ok kb_zero) by (split; [split; reflexivity | reflexivity]).
  exact (init_sim kb_zero H).
Qed.

Theorem run_sim : forall rds, sim Rel (arun rds) (run rds).
Proof.
  intros. unfold arun, run. destruct boot_sim as [s [E F]]. rewrite E. cbn [bind].
  apply ticks_sim; auto.
Qed.

(** In both directions. *)
Corollary run_ok : forall rds s, run rds = Ok s <-> exists a, arun rds = Some a /\ run rds = Ok s /\ Rel a s.
Proof.
  intros rds s. split.
  - intros H. pose proof (run_sim rds) as X. destruct (arun rds) as [a|]; cbn [sim] in X.
    + destruct X as [s' [E F]]. rewrite E in H. inv H. eauto.
    + congruence.
  - intros [a [_ [H _]]]. auto.
Qed.

Corollary run_bad : forall rds u, run rds = Bad u -> u = UKeymapsOob /\ arun rds = None.
Proof.
  intros rds u H. pose proof (run_sim rds) as X. destruct (arun rds); cbn [sim] in X.
  - destruct X as [s [E _]]. congruence.
  - split; congruence.
Qed.
