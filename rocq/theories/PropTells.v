(** What the message keys of the shipped keymaps print, letter for letter (C146). *)
From Coq Require Import List NArith ZArith Arith Bool Lia.
From Coq Require Import String Ascii.
From Coq Require Import ZifyBool ZifyNat ZifyN.
From Verif Require Import Base Lib Buffer Repeat Devices Modifiers Hook KeymapData Asdf KeySpec Obs PropDebounce
     Custom CustomSpec CustomRef PropCustom PropEvents PropFlow PropExact PropSession PropAnyPace PropSpeak PropNoLoss PropLamps PropOnce PropRate PropLegends.
Import ListNotations.
Notation length := Datatypes.length.
Open Scope list_scope.
Open Scope nat_scope.

(** ** Specification *)
Definition letters (t : String.string) : list N := map Ascii.N_of_ascii (String.list_ascii_of_string t).
(** A line of Applesoft BASIC that shows the codes of the keys typed. *)
Definition key_test : String.string :=
  "10GETA$(0):A=ASC(A$(0)):A$(1)=""CTL+""+CHR$(A + 64):?""'"";A$(A<32);""' = "";A:IFA<>3GOTO10"%string.
(** The text of key ([r],[c]) with CTRL on shipped keyboard [k] (0 classic, 1
    classic caps, 2 Apple II, 3 Apple II caps, 4 Sol-20, 5 ACE 1000); without CTRL
    no key has one. *)
Definition told (k : N) (r c : nat) : list N :=
  match k, r, c with
  | 0%N, 6, 5 | 1%N, 6, 5 => letters "[Keymap: classic]"%string ++ [13; 10]%N
  | 2%N, 6, 5 => letters "[Keymap: Apple 2 (u/l case)]"%string
  | 3%N, 6, 5 => letters "[Keymap: Apple 2 CAPS]"%string
  | 0%N, 6, 6 | 1%N, 6, 6 | 2%N, 7, 5 => letters key_test ++ [13]%N
  | _, _, _ => []
  end.

(** ** Proofs *)
Section Said.
Variable kbs : N -> option (list setup_cmd).
Definition said_at (e : setting) (v : nat * nat * bool) : list N :=
  let '(r, c, b) := v in
  if (b : bool) then
    match decode (code_in kbs e r c) with
    | AHereIs => full_message kbs e 5
    | AFn n => if n <=? 10 then full_message kbs e (4 + n) else []
    | _ => []
    end
  else [].
Fixpoint said_all (e : setting) (l : list (nat * nat * bool)) : list N :=
  match l with [] => [] | v :: l => said_at e v ++ said_all (after_event kbs e v) l end.
Lemma said_all_moves : forall l t, all_by kbs (said_by kbs) l t = said_all (t_set t) (flat_map ev_of l).
Proof.
  intros l. induction l as [|[[r c] m] l IH]; intros t; [reflexivity|]. cbn [all_by flat_map]. rewrite IH, set_moved_all.
  destruct m; cbn [said_by ev_of app fold_left said_all]; [reflexivity| |]; cbn [said_at]; reflexivity.
Qed.
End Said.

Lemma told_b : forallb (fun k => forallb (fun e => forallb (fun r => forallb (fun c =>
  if list_eq_dec N.eq_dec (said_at (sole k) e (r, c, true)) (if e_ctrl e then told k r c else []) then true else false) (seq 0 8))
  (seq 0 (height k))) modes) [0; 1; 2; 3; 4; 5]%N = true.
Proof. vm_compute. reflexivity. Qed.
Lemma said_sole : forall pick k e v, pick (e_kb e) = Some k -> said_at (choice pick) e v = said_at (sole k) (on_0 e) v.
Proof.
  intros pick k e [[r c] b] E. unfold said_at. rewrite (code_sole pick k) by exact E.
  assert (M : forall id, full_message (choice pick) e id = full_message (sole k) (on_0 e) id).
  { intros id. unfold full_message, sole, choice. rewrite E. reflexivity. }
  rewrite M. destruct b; [|reflexivity]. destruct (decode _); try reflexivity. rewrite M. reflexivity.
Qed.
Lemma said_told : forall pick k e r c (b : bool), (k < 6)%N -> pick (e_kb e) = Some k -> r < height k -> c < 8 ->
  said_at (choice pick) e (r, c, b) = if b && e_ctrl e then told k r c else [].
Proof.
  intros pick k e r c b Hk He Hr Hc. destruct b; [|reflexivity]. rewrite (said_sole pick k) by exact He.
  change (e_ctrl e) with (e_ctrl (on_0 e)). cbn [andb].
  pose proof told_b as F. rewrite forallb_forall in F. specialize (F k (in_six k Hk)).
  rewrite forallb_forall in F. specialize (F (on_0 e) (modes_all (on_0 e) eq_refl)).
  rewrite forallb_forall in F. specialize (F r ltac:(apply in_seq; lia)).
  rewrite forallb_forall in F. specialize (F c ltac:(apply in_seq; lia)).
  destruct (list_eq_dec _ _ _) as [E|E]; [exact E|discriminate].
Qed.
Lemma told_short : forall k r c, length (told k r c) <= 128 /\ Forall (fun x => x < 0xA0)%N (told k r c).
Proof.
  intros k r c. unfold told.
  repeat match goal with
  | |- context [match ?x with _ => _ end] => is_var x; destruct x
  end; (split; [cbn; lia|]); apply Forall_forall; intros x I; vm_compute in I; repeat (destruct I as [<-|I]; [reflexivity|]); contradiction.
Qed.
Lemma no_full : forall kbs e, scan_hook_free kbs -> full_message kbs e 4 = [].
Proof. intros kbs e Q. unfold full_message. destruct (kbs (e_kb e)) as [cs|] eqn:E; [|reflexivity]. rewrite (no_scan_message kbs Q cs) by eauto. reflexivity. Qed.
Lemma setting_known : forall R kbs rds, sound_firmware R kbs -> forall C,
  kbs (e_kb (fold_left (after_event kbs) (transitions R C [] rds) (at_start kbs))) <> None.
Proof. intros R kbs rds HS C. apply fold_known. exact (start_known kbs R HS). Qed.
(** Messages leave one character a scan. *)
Lemma post_says : forall w k a b out, ~ In 0xA0%N a -> Forall (fun x => x < 0xA0)%N a -> length w = length a ->
  snd (post w k (a ++ b) out) = out ++ a.
Proof.
  intros w. induction w as [|[o p] w IH]; intros k a b out NI LO HL; destruct a as [|x a]; try discriminate HL; [cbn; rewrite app_nil_r; reflexivity|].
  cbn [post app hd tl firstn]. inv LO. replace (x =? 0xA0)%N with false by lia. rewrite (enter_nil 128), <- app_assoc.
  rewrite IH; [|intros I; apply NI; right; exact I|assumption|cbn in HL; lia]. cbn [visible filter]. replace (x <? 160)%N with true by lia.
  rewrite <- app_assoc. reflexivity.
Qed.

(** ** C146 *)
(** One key accepted as pressed or released in a scan at whose start at most one
    character of a message waits, whatever happened before and whichever other
    keys are held: the text told by the key begins to go out, and goes out whole
    before anything else, whatever happens meanwhile. *)
Theorem C146_texts : forall pick R rds rd more s s1 s2 r c b k, alike pick R ->
  c_run (choice pick) rds = Ok s -> c_run (choice pick) (rds ++ [rd]) = Ok s1 -> c_run (choice pick) ((rds ++ [rd]) ++ more) = Ok s2 ->
  length (msg_queue s) <= 1 -> scan_events R 8 rds rd = [(r, c, b)] -> pick (k_cur s) = Some k ->
  msg_queue s1 = (if b && ctrl_on s then told k r c else []) /\
  (length more = length (msg_queue s1) -> sent s2 = sent s1 ++ msg_queue s1).
Proof.
  intros pick R rds rd more s s1 s2 r c b k HA E0 E1 E2 HL HE HK.
  pose proof (alike_sound _ _ HA) as HS. pose proof (alike_size _ _ HA) as HZ. pose proof (alike_quiet _ _ HA) as HQ.
  pose proof (run_post _ R 8 HS HZ _ _ E0) as P0. pose proof (run_post _ R 8 HS HZ _ _ E1) as P1. pose proof (run_post _ R 8 HS HZ _ _ E2) as P2.
  unfold work in *. rewrite works_app, post_app in P2. rewrite P1 in P2. cbn [app] in P2.
  rewrite works_app, post_app, P0 in P1. cbn [app works] in P1. cbv zeta in P1.
  rewrite no_full, said_all_moves, events_of_moves, set_starts, scans_set, HE in P1 by exact HQ. cbn [app said_all starts t_set] in P1. rewrite app_nil_r in P1.
  pose proof (C100_setting R 8 _ rds s HS HZ E0) as (I1&_&_&I4).
  set (e := fold_left (after_event (choice pick)) (transitions R 8 [] rds) (at_start (choice pick))) in *.
  destruct HA as [_ HA]. destruct (HA _ _ HK) as (_&K6&KH).
  assert (IN : r < R /\ c < 8).
  { apply (transitions_in R 8 (rds ++ [rd]) [] r c b). rewrite moves_over. apply in_or_app. right. cbn [transitions app]. rewrite HE. left. reflexivity. }
  rewrite (said_told pick k e r c b K6 ltac:(rewrite <- I1; exact HK) ltac:(lia) (proj2 IN)), <- I4 in P1.
  set (m := if b && ctrl_on s then told k r c else []) in *.
  assert (M : length m <= 128 /\ Forall (fun x => x < 0xA0)%N m).
  { unfold m. destruct (b && ctrl_on s); [apply told_short|split; [cbn; lia|constructor]]. }
  assert (T : tl (msg_queue s) = []) by (destruct (msg_queue s) as [|? [|]]; cbn in *; [reflexivity|reflexivity|lia]).
  assert (Q1 : msg_queue s1 = m).
  { cbn [post] in P1. rewrite T, (enter_fits 128) in P1 by (cbn; lia). destruct (_ =? _)%N in P1; injection P1; intros; symmetry; assumption. }
  split; [exact Q1|]. intros L2. rewrite Q1 in *.
  pose proof (post_says (works (choice pick) R 8 (rds ++ [rd]) more (scans (choice pick) R 8 [] (rds ++ [rd]) (starts (choice pick))))
    (key_queue s1) m [] (sent s1)) as Y.
  rewrite app_nil_r, P2 in Y. cbn [snd] in Y. apply Y; [|apply M|rewrite works_length; exact L2].
  intros I. destruct M as [_ M]. rewrite Forall_forall in M. specialize (M _ I). lia.
Qed.
Print Assumptions C146_texts.

(** The Sol-20 and the ACE 1000 register messages but print none, whatever is
    typed. *)
Theorem C146_never_told : forall k rds s, k = 4%N \/ k = 5%N -> c_run (sole k) rds = Ok s -> msg_queue s = [].
Proof.
  intros k rds s HK ES. assert (K6 : (k < 6)%N) by (clear -HK; lia).
  pose proof (sole_sound k K6) as HS. pose proof (sole_size k K6) as HZ. pose proof (sole_quiet k K6) as HQ.
  pose proof (run_post _ (height k) 8 HS HZ _ _ ES) as P. unfold work in P.
  assert (Z : forall r c, told k r c = []) by (intros r c; destruct HK as [-> | ->]; reflexivity).
  assert (SA : forall l e, sole k (e_kb e) <> None -> Forall (fun v => fst (fst v) < height k /\ snd (fst v) < 8) l -> said_all (sole k) e l = []).
  { intros l. induction l as [|[[r c] b] l IH]; intros e V F; [reflexivity|]. inv F. cbn [said_all fst snd] in *.
    assert (ST := said_told (fun i => if (i =? 0)%N then Some k else None) k e r c b K6 ltac:(rewrite (sole_kb k _ V); reflexivity) ltac:(lia) ltac:(lia)).
    rewrite Z in ST. change (choice _) with (sole k) in ST. rewrite ST.
    rewrite (IH _ (event_known _ _ _ V) H2). destruct (b && e_ctrl e); reflexivity. }
  assert (W : forall rds pre t, sole k (e_kb (t_set t)) <> None -> Forall (fun p => snd p = []) (works (sole k) (height k) 8 pre rds t)).
  { intros l. induction l as [|rd l IH]; intros pre t V; [constructor|]. cbn [works]. cbv zeta. constructor.
    - cbn [snd]. rewrite no_full, said_all_moves, events_of_moves, set_starts by exact HQ. cbn [app]. apply SA; [exact V|].
      apply Forall_forall. intros [[r c] b] I. cbn [fst snd]. apply (transitions_in (height k) 8 [rd] pre r c b). cbn [transitions]. apply in_or_app. left. exact I.
    - apply IH. rewrite set_fold, set_starts. apply fold_known. exact V. }
  specialize (W rds [] (starts (sole k)) (start_known _ _ HS)). revert W P. generalize (works (sole k) (height k) 8 [] rds (starts (sole k))). intros w.
  assert (X : forall w kq out, Forall (fun p => snd p = []) w -> snd (fst (post w kq [] out)) = []).
  { intros w0. induction w0 as [|[o p] w0 IH]; intros kq out F; [reflexivity|]. inv F. cbn [snd] in H1. subst p. cbn [post hd tl]. apply IH. exact H2. }
  intros W P. specialize (X w [] [] W). rewrite P in X. exact X.
Qed.
Print Assumptions C146_never_told.

(** The identifying texts do not tell classic from classic caps: both keyboards
    answer CTRL with key (6,5) by the same text. *)
Theorem C147_identifies_refuted :
  obs sent (c_run (sole 0) (hold 12 [(0, 6)] ++ hold 40 [(0, 6); (6, 5)])) = Some (letters "[Keymap: classic]"%string ++ [13; 10]%N) /\
  obs sent (c_run (sole 1) (hold 12 [(0, 6)] ++ hold 40 [(0, 6); (6, 5)])) = Some (letters "[Keymap: classic]"%string ++ [13; 10]%N) /\
  exists r c, face 0 r c <> face 1 r c.
Proof. split; [vm_compute; reflexivity|]. split; [vm_compute; reflexivity|]. exists 1, 1. vm_compute. intros E. discriminate E. Qed.
Print Assumptions C147_identifies_refuted.

(** They tell the others apart, also if only the beginning arrives before other text. *)
Theorem C147_identifies_partial : forall k k' u v, (k < 4)%N -> (k' < 4)%N -> told k 6 5 ++ u = told k' 6 5 ++ v ->
  k = k' \/ (k < 2 /\ k' < 2)%N.
Proof.
  intros k k' u v H H'. assert (K : (k = 0 \/ k = 1 \/ k = 2 \/ k = 3)%N) by lia. assert (K' : (k' = 0 \/ k' = 1 \/ k' = 2 \/ k' = 3)%N) by lia.
  destruct K as [-> |[-> |[-> | ->]]], K' as [-> |[-> |[-> | ->]]]; intros E; try (left; reflexivity); try (right; lia); vm_compute in E; discriminate E.
Qed.
Print Assumptions C147_identifies_partial.

(** CTRL held with "a" down; FN10 pressed; "b" struck while the text goes out. *)
Example C146_example :
  let rds := hold 12 [(0, 6)] ++ hold 15 [(0, 6); (1, 1)] ++ hold 9 [(0, 6); (1, 1); (6, 5)] in
  let rd := matrix [(0, 6); (1, 1); (6, 5)] in
  let more := hold 5 [(0, 6); (6, 5)] ++ hold 14 [(0, 6); (6, 5); (3, 2)] in
  scan_events 9 8 rds rd = [(6, 5, true)] /\
  obs (fun s => (length (msg_queue s), k_cur s, ctrl_on s)) (c_run (sole 0) rds) = Some (0, 0%N, true) /\
  obs sent (c_run (sole 0) ((rds ++ [rd]) ++ more)) = Some ([16] ++ letters "[Keymap: classic]"%string ++ [13; 10])%N.
Proof. vm_compute. auto. Qed.
