(** From fingers that roll over keys, hold them, change modes and call up messages
    to what a host latches, in continuous time, under any keymaps (C132). *)
From Coq Require Import List NArith ZArith Arith Bool Lia.
From Coq Require Import ZifyBool ZifyNat ZifyN.
From Verif Require Import Base Lib Buffer Repeat Devices Modifiers Hook KeymapData Asdf KeySpec Obs PropDebounce
     Custom CustomSpec CustomRef PropCustom PropEvents PropFlow PropExact PropSession.
From Verif Require Avr Arch328p Arch2560 PropArch328 PropArch2560.
From Verif Require Import Host PropHost PropBoard PropModState PropBounce System Timed PropTimed Jitter PropJitter PropHands
     CustomSystem CustomTime PropAnyTime PropAnyHands PropAnyConnector PropRollTime PropHolds PropAnyPace PropSpeak.
Import ListNotations.

(** By the pass under way at the end, on either board, a host on either edge has
    latched the text, byte by byte; the pass before, all of it but perhaps the last
    character. *)
Theorem C132_fingers_to_connector : forall R C kbs P W Z out H e,
  sound_firmware R kbs -> same_size R C kbs -> scan_hook_free kbs -> strobe_fixed kbs ->
  c_speaks R C kbs W (c_ended kbs P W) (c_ended kbs P W 0) (fun _ _ => false) (at_start kbs) Z out H e ->
  exists N s c s' c' text part, c_ended kbs P W N <= Z <= c_ended kbs P W (S N) /\ spells out text /\
    setting_is e s /\ (exists late, text = part ++ late /\ length late <= 1) /\
    (forall h, Avr.at_reset h -> forall rise ser x,
      (exists h', c_real kbs (board_328p false ser x) P W N h = Ok (s, (h', c)) /\ latched rise Avr.PB 6 Avr.PD (Avr.hist h') = map lines_of part) /\
      (exists h', c_real kbs (board_328p false ser x) P W (S N) h = Ok (s', (h', c')) /\ latched rise Avr.PB 6 Avr.PD (Avr.hist h') = map lines_of text)) /\
    (forall h, Avr.at_reset h -> forall rise x,
      (exists h', c_real kbs (board_2560 false x) P W N h = Ok (s, (h', c)) /\ latched rise Avr.PB 4 Avr.PH (Avr.hist h') = map lines_of part) /\
      (exists h', c_real kbs (board_2560 false x) P W (S N) h = Ok (s', (h', c')) /\ latched rise Avr.PB 4 Avr.PH (Avr.hist h') = map lines_of text)).
Proof.
  intros R C kbs P W Z out H e HS HZ HQ HF HE.
  destruct (C131_message_keys_in_continuous_time R C kbs P W Z out H e HS HZ HQ HE) as (N&s&c&s'&c'&text&E1&E2&ZN&SP&LT&TX&_&SE&_).
  destruct (C113_host_gets_all_sent R C kbs P W N HS HZ HF) as (s1&c1&F1&_&A&B). rewrite E1 in F1. inv F1.
  destruct (C113_host_gets_all_sent R C kbs P W (S N) HS HZ HF) as (s2&c2&F2&_&A'&B'). rewrite E2 in F2. inv F2.
  exists N, s1, c1, s2, c2, (sent s2), (sent s1). split; [exact ZN|]. split; [exact SP|]. split; [exact SE|]. split; [exact LT|]. split.
  - intros h HR rise ser x. split; [apply A|apply A']; exact HR.
  - intros h HR rise x. split; [apply B|apply B']; exact HR.
Qed.
Print Assumptions C132_fingers_to_connector.

(** The keyboard and the session of C131, which starts as [C131_example] shows: a
    message of four characters, then "a". *)
Lemma teller_fixed : strobe_fixed teller.
Proof.
  intros i cs K. unfold teller in K. destruct (N.eqb_spec i 0); inv K;
    (split; [intros X; repeat (destruct X as [X|X]; [discriminate|]); contradiction|]; intros m mi r c X Y;
     repeat (destruct X as [X|X]; [try discriminate; inv X; repeat (destruct Y as [Y|Y]; [discriminate|]); contradiction|]); contradiction).
Qed.
Example C132_example : strobe_fixed teller /\
  bind (c_real teller (board_328p false true (fun _ => 0%N)) prompt say_world 435 PropArch328.hw0)
    (fun p => Ok (latched false Avr.PB 6 Avr.PD (Avr.hist (fst (snd p))))) = Ok (map lines_of [79; 75; 13; 10; 97]%N) /\
  (exists H e, c_speaks 1 2 teller say_world (c_ended teller prompt say_world) (c_ended teller prompt say_world 0) (fun _ _ => false) (at_start teller) 530
     [(79%N, 1, 1); (75%N, 1, 1); (13%N, 1, 1); (10%N, 1, 1); (97%N, 1, 1)] H e).
Proof.
  split; [exact teller_fixed|]. split; [vm_compute; reflexivity|]. exact (proj1 (proj2 (proj2 (proj2 C131_example)))).
Qed.
