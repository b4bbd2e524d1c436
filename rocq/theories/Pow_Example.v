(** Examples for powstream *)
From Coq Require Import ZArith List Bool.
From Verif Require Import Base Arith_Model Pow_Model Pow_Spec.
Import ListNotations.
Open Scope Z_scope.

(** answers: yes, no, a number, a time in seconds, SIGHUP *)
Definition yes : ans := mkAns true 0 0 false false.
Definition no : ans := mkAns false 0 0 false false.
Definition num (n : Z) : ans := mkAns true n 0 false false.
Definition at_ (t : Z) : ans := mkAns true 0 (t * 2^32) false false.
Definition hup : ans := mkAns true 0 0 true false.
(** packets after 10, 20, 30, 10, 20, 30, ... seconds *)
Definition d (sid : Z) (n : nat) : Z := (1 + Z.of_nat n mod 3) * 10 * 2^32.
(** two summaries of two packets each, loss timeout 2 s *)
Definition run (sender printfiles : bool) (env : list ans) (n : nat) := passes 2 2 (2 * 2^32) 3 0 0 sender printfiles d 3 n (world0 env).
(** setup of a first session on a connection, and of a later one, at time t, without failure *)
Definition setup_new t sid := [at_ t; at_ t; yes; yes; yes; yes; at_ t; yes; yes; yes; num sid; yes; yes; yes; yes].
Definition setup_again t sid := [at_ t; at_ t; yes; yes; yes; at_ t; yes; yes; yes; num sid; yes; yes; yes; yes].
(** a summary during a session, the last one, the file of all records *)
Definition good_sum := [num 1; num 5; yes; yes].
Definition last_sum := [num 0; yes; num 5; yes; yes].
Definition written := [yes; yes; yes; yes].
Definition sec (t : Z) : Z := t * 2^32.

(** undisturbed: three sessions *)
Definition undisturbed := [yes] ++ setup_new 1000 7 ++ [yes; yes] ++ setup_new 1003 8 ++ good_sum ++ [yes] ++ last_sum ++ written
  ++ [yes; yes] ++ setup_again 1082 9 ++ good_sum ++ [yes] ++ last_sum ++ written.
Example undisturbed_log : run false false undisturbed 3 = (Ret tt, snd (run false false undisturbed 3)) /\ w_log (snd (run false false undisturbed 3)) =
  [EStart 1 7 (sec 1010) (sec 1010); EStart 2 8 (sec 1080) (sec 1013); ESum 1 0 2 (sec 1010) (sec 1040); EOver 1; ESum 1 2 4 (sec 1040) (sec 1080);
   ESession 1 (sec 1010) (sec 1080); EWhole 1 (sec 1010) (sec 1080);
   EOver 1; EStart 3 9 (sec 1150) (sec 1092); ESum 2 0 2 (sec 1080) (sec 1110); EOver 2; ESum 2 2 4 (sec 1110) (sec 1150); ESession 2 (sec 1080) (sec 1150); EWhole 2 (sec 1080) (sec 1150)].
Proof. vm_compute. split; reflexivity. Qed.
(** the connection is lost in the second range: the records are stored under the time of the scheduled end *)
Definition lost := [yes] ++ setup_new 1000 7 ++ [yes; yes] ++ setup_new 1003 8 ++ good_sum ++ [yes] ++ [num (-1); yes] ++ written ++ [yes; yes]
   ++ setup_again 1045 9 ++ [yes; yes] ++ setup_again 1046 10 ++ good_sum ++ [yes] ++ last_sum ++ written.
Example lost_log : run false false lost 4 = (Ret tt, snd (run false false lost 4)) /\ w_log (snd (run false false lost 4)) =
  [EStart 1 7 (sec 1010) (sec 1010); EStart 2 8 (sec 1080) (sec 1013); ESum 1 0 2 (sec 1010) (sec 1040); EOver 1; EBroken 1; ESession 1 (sec 1010) (sec 1080); EWhole 1 (sec 1010) (sec 1080);
   EOver 2; EBroken 2; EOver 2; EStart 3 9 (sec 1055) (sec 1055); EStart 4 10 (sec 1125) (sec 1056); ESum 3 0 2 (sec 1055) (sec 1085); EOver 3; ESum 3 2 4 (sec 1085) (sec 1125);
   ESession 3 (sec 1055) (sec 1125); EWhole 3 (sec 1055) (sec 1125)].
Proof. vm_compute. split; reflexivity. Qed.
(** the setup of the next session fails while the first range is waited for: the loop over the ranges starts again, with the schedule at the second *)
Definition fails := [yes] ++ setup_new 1000 7 ++ [yes; yes] ++ [at_ 1003; at_ 1003; yes; yes; no; yes] ++ [yes; yes; yes] ++ setup_new 1004 8 ++ good_sum ++ [yes] ++ last_sum ++ written.
Example fails_log : run false false fails 4 = (Ret tt, snd (run false false fails 4)) /\ w_log (snd (run false false fails 4)) =
  [EStart 1 7 (sec 1010) (sec 1010); EFailed; EStart 2 8 (sec 1080) (sec 1014); ESum 1 0 2 (sec 1010) (sec 1050); EOver 1; ESum 1 2 4 (sec 1050) (sec 1100);
   ESession 1 (sec 1010) (sec 1080); EWhole 1 (sec 1010) (sec 1080)].
Proof. vm_compute. split; reflexivity. Qed.
(** the same, late *)
Definition late := [yes] ++ setup_new 1000 7 ++ [yes; yes] ++ [at_ 1050] ++ good_sum ++ [yes] ++ [at_ 1051; at_ 1051; yes; yes; no; yes] ++ [yes; yes; yes] ++ setup_new 1052 8 ++ good_sum ++ [yes] ++ last_sum ++ written.
Example late_log : run false false late 4 = (Ret tt, snd (run false false late 4)) /\ w_log (snd (run false false late 4)) =
  [EStart 1 7 (sec 1010) (sec 1010); ESum 1 0 2 (sec 1010) (sec 1040); EFailed; EStart 2 8 (sec 1080) (sec 1062); ESum 1 0 2 (sec 1080) (sec 1130); EOver 1;
   ESum 1 2 4 (sec 1130) (sec 1160); ESession 1 (sec 1080) (sec 1080); EWhole 1 (sec 1080) (sec 1080)].
Proof. vm_compute. split; reflexivity. Qed.
(** -p, and the file cannot be made *)
Definition nofile := [yes] ++ setup_new 1000 7 ++ [yes; yes] ++ setup_new 1003 8 ++ good_sum ++ [yes] ++ last_sum ++ [yes; num 1; no].
Example nofile_end : fst (run false true nofile 3) = Halt HGarbage. Proof. vm_compute. reflexivity. Qed.
(** -t, and SIGHUP while the connection for fetching is opened *)
Definition hungup := [yes] ++ setup_new 1000 7 ++ [yes; yes] ++ setup_new 1003 8 ++ [num 1; yes; yes; hup; num 0; num 0; yes; yes; num 1] ++ repeat (at_ 1050) 50.
Example hungup_end : fst (run true false hungup 3) = Halt HCrash. Proof. vm_compute. reflexivity. Qed.
(** a setup fails, the clock is set back, and the setup succeeds *)
Definition back := [yes] ++ [at_ 1000; at_ 1000; yes; yes; yes; yes; at_ 1000; yes; yes; yes; no] ++ [yes; at_ 500; at_ 500; yes; no] ++ [yes] ++ setup_new 500 7.
Example back_log : run false false back 3 = (Ret tt, snd (run false false back 3)) /\ w_log (snd (run false false back 3)) = [EOver 0; EFailed; EFailed; EStart 1 7 (sec 1010) (sec 510)].
Proof. vm_compute. split; reflexivity. Qed.
