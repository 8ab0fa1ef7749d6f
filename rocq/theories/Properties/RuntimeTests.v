(** Validation of the model against the project's own unit tests: each CHECK of
    /repo/tests/runtime_tests/string_utility.cpp on a function of the model, with the values expected there. These are
    tests of the model, not properties. Written by tools/runtime.py. *)
From Coq Require Import NArith ZArith.
From Verif.Spec Require Import TextSpec FilterSpec ValueSpec.
From Verif.Model Require Import Base Vector StringUtil Filter Values.
Local Open Scope list_scope.

Definition content (r : res (sstr * bool)) : option (text * bool) :=
  match r with Ok (s, ok) => Some (vcontent s, ok) | Err _ => None end.
(** Both the function used during constant evaluation and the one used at run time, without [std::to_chars]. *)
Definition appends (cap : nat) (v : value) (t : text * bool) : Prop :=
  content (append_built_in AtCompileTime (new_string cap) v) = Some t /\
  content (append_built_in (AtRunTime None [] []) (new_string cap) v) = Some t.
Definition escaped_as (cap : nat) (s pattern r expected : string) (ok : bool) : Prop :=
  content (do ss <- string_from cap (quote s) ;; escape_all_or_truncate 20 ss (quote pattern) (quote r)) = Some (quote expected, ok).
Definition replaced_as (cap : nat) (s pattern r expected : string) (ok : bool) : Prop :=
  content (do ss <- string_from cap (quote s) ;; replace_all 20 ss (quote pattern) (quote r)) = Some (quote expected, ok).
Definition EI := mkfr true false.
Definition EE := mkfr false false.
Definition II := mkfr true true.
Definition IE := mkfr false true.

(** "append misc", strings of capacity 21 *)
Example runtime_append_misc_21 : Forall (fun P => P) [
  appends 21 (View (quote "")) (quote "", true);
  appends 21 (View (quote "a")) (quote "a", true);
  appends 21 (View (quote "abcd")) (quote "abcd", true);
  appends 21 (Boolean true) (quote "true", true);
  appends 21 (Boolean false) (quote "false", true);
  appends 21 (NullPtr) (quote "nullptr", true);
  appends 21 (CString None) (quote "nullptr", true);
  appends 21 (CString (Some (quote "abc" ++ [ascii_of_nat 0]))) (quote "abc", true);
  appends 21 (Array (quote "abc" ++ [ascii_of_nat 0])) (quote "abc", true);
  appends 21 (NullPtr) (quote "nullptr", true);
  appends 21 (Code true) (quote "nullptr", true);
  appends 21 (Code false) (quote "0x????????", true);
  appends 21 (Code true) (quote "nullptr", true);
  appends 21 (Code false) (quote "0x????????", true)
]%nat.
Proof. repeat (apply Forall_cons; [vm_compute; try split; reflexivity|]). apply Forall_nil. Qed.

(** "append misc", strings of capacity 5 *)
Example runtime_append_misc_5 : Forall (fun P => P) [
  appends 5 (View (quote "abcdefghijklmnopqrst")) (quote "abcde", false);
  appends 5 (NullPtr) (quote "nullp", false)
]%nat.
Proof. repeat (apply Forall_cons; [vm_compute; try split; reflexivity|]). apply Forall_nil. Qed.

(** "append misc", strings of capacity 3 *)
Example runtime_append_misc_3 : Forall (fun P => P) [
  appends 3 (Boolean true) (quote "tru", false);
  appends 3 (Boolean false) (quote "fal", false);
  appends 3 (NullPtr) (quote "nul", false)
]%nat.
Proof. repeat (apply Forall_cons; [vm_compute; try split; reflexivity|]). apply Forall_nil. Qed.

(** "append ints", strings of capacity 21 *)
Example runtime_append_ints_21 : Forall (fun P => P) [
  appends 21 (Integer true 64 (0)%Z) (quote "0", true);
  appends 21 (Integer false 64 0%Z) (quote "0", true);
  appends 21 (Integer true 64 (1)%Z) (quote "1", true);
  appends 21 (Integer true 64 (-1)%Z) (quote "-1", true);
  appends 21 (Integer false 64 1%Z) (quote "1", true);
  appends 21 (Integer true 64 (9)%Z) (quote "9", true);
  appends 21 (Integer true 64 (-9)%Z) (quote "-9", true);
  appends 21 (Integer false 64 9%Z) (quote "9", true);
  appends 21 (Integer true 64 (10)%Z) (quote "10", true);
  appends 21 (Integer true 64 (-10)%Z) (quote "-10", true);
  appends 21 (Integer false 64 10%Z) (quote "10", true);
  appends 21 (Integer true 64 (15)%Z) (quote "15", true);
  appends 21 (Integer true 64 (-15)%Z) (quote "-15", true);
  appends 21 (Integer false 64 15%Z) (quote "15", true);
  appends 21 (Integer true 64 (115)%Z) (quote "115", true);
  appends 21 (Integer true 64 (-115)%Z) (quote "-115", true);
  appends 21 (Integer false 64 115%Z) (quote "115", true);
  appends 21 (Integer true 64 (10005)%Z) (quote "10005", true);
  appends 21 (Integer true 64 (-10005)%Z) (quote "-10005", true);
  appends 21 (Integer false 64 10005%Z) (quote "10005", true);
  appends 21 (Integer false 64 4294967295%Z) (quote "4294967295", true);
  appends 21 (Integer true 64 (2147483647)%Z) (quote "2147483647", true);
  appends 21 (Integer true 64 (-2147483648)%Z) (quote "-2147483648", true);
  appends 21 (Integer false 64 18446744073709551615%Z) (quote "18446744073709551615", true);
  appends 21 (Integer true 64 (9223372036854775807)%Z) (quote "9223372036854775807", true);
  appends 21 (Integer true 64 (-9223372036854775808)%Z) (quote "-9223372036854775808", true);
  appends 21 (Enumerator (Integer true 32 0)%Z) (quote "0", true);
  appends 21 (Enumerator (Integer true 32 12)%Z) (quote "12", true);
  appends 21 (Enumerator (Integer true 32 123456)%Z) (quote "123456", true)
]%nat.
Proof. repeat (apply Forall_cons; [vm_compute; try split; reflexivity|]). apply Forall_nil. Qed.

(** "append ints", strings of capacity 5 *)
Example runtime_append_ints_5 : Forall (fun P => P) [
  appends 5 (Integer true 64 (123456)%Z) (quote "12345", false);
  appends 5 (Integer true 64 (1234567)%Z) (quote "12345", false);
  appends 5 (Integer true 64 (12345678)%Z) (quote "12345", false);
  appends 5 (Integer true 64 (-12345)%Z) (quote "-1234", false);
  appends 5 (Integer true 64 (-123456)%Z) (quote "-1234", false);
  appends 5 (Integer true 64 (-1234567)%Z) (quote "-1234", false);
  appends 5 (Integer false 64 123456%Z) (quote "12345", false);
  appends 5 (Integer false 64 1234567%Z) (quote "12345", false);
  appends 5 (Integer false 64 12345678%Z) (quote "12345", false)
]%nat.
Proof. repeat (apply Forall_cons; [vm_compute; try split; reflexivity|]). apply Forall_nil. Qed.

(** "append ints", strings of capacity 3 *)
Example runtime_append_ints_3 : Forall (fun P => P) [
  appends 3 (Enumerator (Integer true 32 123456)%Z) (quote "123", false)
]%nat.
Proof. repeat (apply Forall_cons; [vm_compute; try split; reflexivity|]). apply Forall_nil. Qed.

(** "append floats", strings of capacity 21 *)
Example runtime_append_floats_21 : Forall (fun P => P) [
  appends 21 (Float 0%Z) (quote "0.000000e+00", true);
  appends 21 (Float 2147483648%Z) (quote "-0.000000e+00", true);
  appends 21 (Float 1065353216%Z) (quote "1.000000e+00", true);
  appends 21 (Float 1069547520%Z) (quote "1.500000e+00", true);
  appends 21 (Float 1069631406%Z) (quote "1.510000e+00", true);
  appends 21 (Float 1069555909%Z) (quote "1.501000e+00", true);
  appends 21 (Float 1069548359%Z) (quote "1.500100e+00", true);
  appends 21 (Float 1069547604%Z) (quote "1.500010e+00", true);
  appends 21 (Float 1069547528%Z) (quote "1.500001e+00", true);
  appends 21 (Float 3212836864%Z) (quote "-1.000000e+00", true);
  appends 21 (Float 1092616192%Z) (quote "1.000000e+01", true);
  appends 21 (Float 1176256512%Z) (quote "1.000000e+04", true);
  appends 21 (Float 897988541%Z) (quote "1.000000e-06", true);
  appends 21 (Float 1249513714%Z) (quote "4.097084e+06", true);
  appends 21 (Float 1855427762%Z) (quote "2.345600e+28", true);
  appends 21 (Float 4002911410%Z) (quote "-2.345600e+28", true);
  appends 21 (Float 2139095037%Z) (quote "3.402823e+38", true);
  appends 21 (Float 4286578685%Z) (quote "-3.402823e+38", true);
  appends 21 (Float 294955913%Z) (quote "2.345600e-28", true);
  appends 21 (Float 2442439561%Z) (quote "-2.345600e-28", true);
  appends 21 (Float 8388605%Z) (quote "1.175494e-38", true);
  appends 21 (Float 2155872253%Z) (quote "-1.175494e-38", true);
  appends 21 (Float 1674%Z) (quote "2.345774e-42", true);
  appends 21 (Float 2147485322%Z) (quote "-2.345774e-42", true);
  appends 21 (Float 1%Z) (quote "1.401298e-45", true);
  appends 21 (Float 2147483649%Z) (quote "-1.401298e-45", true);
  appends 21 (Float 2139095040%Z) (quote "inf", true);
  appends 21 (Float 4286578688%Z) (quote "-inf", true);
  appends 21 (Float 2143289344%Z) (quote "nan", true);
  appends 21 (Float 1065353217%Z) (quote "1.000000e+00", true);
  appends 21 (Float 1065353218%Z) (quote "1.000000e+00", true);
  appends 21 (Float 1065353219%Z) (quote "1.000000e+00", true);
  appends 21 (Float 1065353219%Z) (quote "1.000000e+00", true);
  appends 21 (Float 1065353220%Z) (quote "1.000000e+00", true);
  appends 21 (Float 1065353221%Z) (quote "1.000001e+00", true);
  appends 21 (Float 1065353222%Z) (quote "1.000001e+00", true);
  appends 21 (Float 1065353223%Z) (quote "1.000001e+00", true);
  appends 21 (Float 1065353224%Z) (quote "1.000001e+00", true);
  appends 21 (Float 1065353224%Z) (quote "1.000001e+00", true);
  appends 21 (Float 1065353225%Z) (quote "1.000001e+00", true);
  appends 21 (Float 1065353226%Z) (quote "1.000001e+00", true);
  appends 21 (Float 1065353227%Z) (quote "1.000001e+00", true);
  appends 21 (Float 1065353228%Z) (quote "1.000001e+00", true);
  appends 21 (Float 1065353229%Z) (quote "1.000002e+00", true);
  appends 21 (Float 1065353229%Z) (quote "1.000002e+00", true);
  appends 21 (Float 1065353230%Z) (quote "1.000002e+00", true);
  appends 21 (Float 1065353231%Z) (quote "1.000002e+00", true);
  appends 21 (Float 1065353232%Z) (quote "1.000002e+00", true)
]%nat.
Proof. repeat (apply Forall_cons; [vm_compute; try split; reflexivity|]). apply Forall_nil. Qed.

(** "append floats", strings of capacity 5 *)
Example runtime_append_floats_5 : Forall (fun P => P) [
  appends 5 (Float 0%Z) (quote "0.000", false);
  appends 5 (Float 3212836864%Z) (quote "-1.00", false)
]%nat.
Proof. repeat (apply Forall_cons; [vm_compute; try split; reflexivity|]). apply Forall_nil. Qed.

(** "append doubles", strings of capacity 35 *)
Example runtime_append_doubles_35 : Forall (fun P => P) [
  appends 35 (Double 0%Z) (quote "0.000000000000000e+00", true);
  appends 35 (Double 9223372036854775808%Z) (quote "-0.000000000000000e+00", true);
  appends 35 (Double 4607182418800017408%Z) (quote "1.000000000000000e+00", true);
  appends 35 (Double 4609434218613702656%Z) (quote "1.500000000000000e+00", true);
  appends 35 (Double 4609479254609976361%Z) (quote "1.510000000000000e+00", true);
  appends 35 (Double 4609438722213330026%Z) (quote "1.501000000000000e+00", true);
  appends 35 (Double 4609434668973665393%Z) (quote "1.500100000000000e+00", true);
  appends 35 (Double 4609434263649698930%Z) (quote "1.500010000000000e+00", true);
  appends 35 (Double 4609434223117302283%Z) (quote "1.500001000000000e+00", true);
  appends 35 (Double 4609434219064062619%Z) (quote "1.500000100000000e+00", true);
  appends 35 (Double 4609434218658738652%Z) (quote "1.500000010000000e+00", true);
  appends 35 (Double 4609434218618206256%Z) (quote "1.500000001000000e+00", true);
  appends 35 (Double 4609434218614153016%Z) (quote "1.500000000100000e+00", true);
  appends 35 (Double 4609434218613747692%Z) (quote "1.500000000010000e+00", true);
  appends 35 (Double 4609434218613707160%Z) (quote "1.500000000001000e+00", true);
  appends 35 (Double 4609434218613703106%Z) (quote "1.500000000000100e+00", true);
  appends 35 (Double 4609434218613702701%Z) (quote "1.500000000000010e+00", true);
  appends 35 (Double 4609434218613702661%Z) (quote "1.500000000000001e+00", true);
  appends 35 (Double 13830554455654793216%Z) (quote "-1.000000000000000e+00", true);
  appends 35 (Double 4621819117588971520%Z) (quote "1.000000000000000e+01", true);
  appends 35 (Double 4666723172467343360%Z) (quote "1.000000000000000e+04", true);
  appends 35 (Double 4517329193108106637%Z) (quote "1.000000000000000e-06", true);
  appends 35 (Double 9115711378149329649%Z) (quote "2.345600000000000e+301", true);
  appends 35 (Double 18339083415004105457%Z) (quote "-2.345600000000000e+301", true);
  appends 35 (Double 9218868437227405307%Z) (quote "1.797693134862315e+308", true);
  appends 35 (Double 18442240474082181115%Z) (quote "-1.797693134862315e+308", true);
  appends 35 (Double 109242308781597316%Z) (quote "2.345600000000000e-301", true);
  appends 35 (Double 9332614345636373124%Z) (quote "-2.345600000000000e-301", true);
  appends 35 (Double 4503599627370495%Z) (quote "2.225073858507201e-308", true);
  appends 35 (Double 9227875636482146303%Z) (quote "-2.225073858507201e-308", true);
  appends 35 (Double 4748%Z) (quote "2.345823686454239e-320", true);
  appends 35 (Double 9223372036854780556%Z) (quote "-2.345823686454239e-320", true);
  appends 35 (Double 1%Z) (quote "4.940656458412465e-324", true);
  appends 35 (Double 9223372036854775809%Z) (quote "-4.940656458412465e-324", true);
  appends 35 (Double 12506979915229565662%Z) (quote "-3.479295510743212e-89", true);
  appends 35 (Double 9218868437227405312%Z) (quote "inf", true);
  appends 35 (Double 18442240474082181120%Z) (quote "-inf", true);
  appends 35 (Double 9221120237041090560%Z) (quote "nan", true);
  appends 35 (Double 4607182418800017408%Z) (quote "1.000000000000000e+00", true);
  appends 35 (Double 4607182418800017409%Z) (quote "1.000000000000000e+00", true);
  appends 35 (Double 4607182418800017409%Z) (quote "1.000000000000000e+00", true);
  appends 35 (Double 4607182418800017410%Z) (quote "1.000000000000000e+00", true);
  appends 35 (Double 4607182418800017410%Z) (quote "1.000000000000000e+00", true);
  appends 35 (Double 4607182418800017411%Z) (quote "1.000000000000001e+00", true);
  appends 35 (Double 4607182418800017411%Z) (quote "1.000000000000001e+00", true);
  appends 35 (Double 4607182418800017412%Z) (quote "1.000000000000001e+00", true);
  appends 35 (Double 4607182418800017412%Z) (quote "1.000000000000001e+00", true);
  appends 35 (Double 4607182418800017413%Z) (quote "1.000000000000001e+00", true);
  appends 35 (Double 4607182418800017413%Z) (quote "1.000000000000001e+00", true);
  appends 35 (Double 4607182418800017413%Z) (quote "1.000000000000001e+00", true);
  appends 35 (Double 4607182418800017414%Z) (quote "1.000000000000001e+00", true);
  appends 35 (Double 4607182418800017414%Z) (quote "1.000000000000001e+00", true);
  appends 35 (Double 4607182418800017415%Z) (quote "1.000000000000002e+00", true);
  appends 35 (Double 4607182418800017415%Z) (quote "1.000000000000002e+00", true);
  appends 35 (Double 4607182418800017416%Z) (quote "1.000000000000002e+00", true);
  appends 35 (Double 4607182418800017416%Z) (quote "1.000000000000002e+00", true);
  appends 35 (Double 4607182418800017417%Z) (quote "1.000000000000002e+00", true)
]%nat.
Proof. repeat (apply Forall_cons; [vm_compute; try split; reflexivity|]). apply Forall_nil. Qed.

(** "append doubles", strings of capacity 5 *)
Example runtime_append_doubles_5 : Forall (fun P => P) [
  appends 5 (Double 0%Z) (quote "0.000", false);
  appends 5 (Double 13830554455654793216%Z) (quote "-1.00", false)
]%nat.
Proof. repeat (apply Forall_cons; [vm_compute; try split; reflexivity|]). apply Forall_nil. Qed.

(** "is_match" *)
Example runtime_is_match : Forall (fun P => P) [
  is_match (quote "") (quote "") = true;
  is_match (quote "abc") (quote "") = true;
  is_match (quote "") (quote "abc") = false;
  is_match (quote "abc") (quote "abc") = true;
  is_match (quote "abc") (quote "cba") = false;
  is_match (quote "abc") (quote "ab") = false;
  is_match (quote "abc") (quote "bc") = false;
  is_match (quote "abc") (quote "a") = false;
  is_match (quote "abc") (quote "b") = false;
  is_match (quote "abc") (quote "c") = false;
  is_match (quote "abc") (quote "abcd") = false;
  is_match (quote "abc") (quote "zabc") = false;
  is_match (quote "abc") (quote "abcdefghijkl") = false;
  is_match (quote "abc") (quote "*") = true;
  is_match (quote "azzzzzzzzzzbc") (quote "*") = true;
  is_match (quote "") (quote "*") = true;
  is_match (quote "abc") (quote "*bc") = true;
  is_match (quote "azzzzzzzzzzbc") (quote "*bc") = true;
  is_match (quote "bc") (quote "*bc") = true;
  is_match (quote "abd") (quote "*bc") = false;
  is_match (quote "azzzzzzzzzzbd") (quote "*bc") = false;
  is_match (quote "bd") (quote "*bc") = false;
  is_match (quote "abc") (quote "ab*") = true;
  is_match (quote "abccccccccccc") (quote "ab*") = true;
  is_match (quote "ab") (quote "ab*") = true;
  is_match (quote "adc") (quote "ab*") = false;
  is_match (quote "adccccccccccc") (quote "ab*") = false;
  is_match (quote "ad") (quote "ab*") = false;
  is_match (quote "ab_cd") (quote "ab*cd") = true;
  is_match (quote "abasdasdasdcd") (quote "ab*cd") = true;
  is_match (quote "abcd") (quote "ab*cd") = true;
  is_match (quote "adcd") (quote "ab*cd") = false;
  is_match (quote "abcc") (quote "ab*cd") = false;
  is_match (quote "accccccccccd") (quote "ab*cd") = false;
  is_match (quote "ab") (quote "ab*cd") = false;
  is_match (quote "abc") (quote "ab*cd") = false;
  is_match (quote "abd") (quote "ab*cd") = false;
  is_match (quote "cd") (quote "ab*cd") = false;
  is_match (quote "bcd") (quote "ab*cd") = false;
  is_match (quote "acd") (quote "ab*cd") = false;
  is_match (quote "zab_cdw") (quote "*ab*cd*") = true;
  is_match (quote "zzzzzzabcccccccccccdwwwwwww") (quote "*ab*cd*") = true;
  is_match (quote "abcd") (quote "*ab*cd*") = true;
  is_match (quote "ab_cdw") (quote "*ab*cd*") = true;
  is_match (quote "zabcdw") (quote "*ab*cd*") = true;
  is_match (quote "zab_cd") (quote "*ab*cd*") = true;
  is_match (quote "abcd") (quote "*ab*cd*") = true;
  is_match (quote "ababcd") (quote "*ab*cd*") = true;
  is_match (quote "abcdabcd") (quote "*ab*cd*") = true;
  is_match (quote "abcdabcc") (quote "*ab*cd*") = true;
  is_match (quote "zad_cdw") (quote "*ab*cd*") = false;
  is_match (quote "zac_cdw") (quote "*ab*cd*") = false;
  is_match (quote "zaa_cdw") (quote "*ab*cd*") = false;
  is_match (quote "zdb_cdw") (quote "*ab*cd*") = false;
  is_match (quote "zcb_cdw") (quote "*ab*cd*") = false;
  is_match (quote "zbb_cdw") (quote "*ab*cd*") = false;
  is_match (quote "zab_ddw") (quote "*ab*cd*") = false;
  is_match (quote "zab_bdw") (quote "*ab*cd*") = false;
  is_match (quote "zab_adw") (quote "*ab*cd*") = false;
  is_match (quote "zab_ccw") (quote "*ab*cd*") = false;
  is_match (quote "zab_cbw") (quote "*ab*cd*") = false;
  is_match (quote "zab_caw") (quote "*ab*cd*") = false;
  is_match (quote "zab_") (quote "*ab*cd*") = false;
  is_match (quote "zab") (quote "*ab*cd*") = false;
  is_match (quote "ab_") (quote "*ab*cd*") = false;
  is_match (quote "ab") (quote "*ab*cd*") = false;
  is_match (quote "_cdw") (quote "*ab*cd*") = false;
  is_match (quote "cdw") (quote "*ab*cd*") = false;
  is_match (quote "cd") (quote "*ab*cd*") = false;
  is_match (quote "abc") (quote "**") = true;
  is_match (quote "azzzzzzzzzzbc") (quote "**") = true;
  is_match (quote "") (quote "**") = true;
  is_match (quote "abcdefg") (quote "*g*******") = true;
  is_match (quote "abc") (quote "abc**") = true;
  is_match (quote "abc") (quote "ab**") = true;
  is_match (quote "abc") (quote "a**") = true;
  is_match (quote "abc") (quote "**abc") = true;
  is_match (quote "abc") (quote "**bc") = true;
  is_match (quote "abc") (quote "**c") = true;
  is_match (quote "abc") (quote "ab**c") = true;
  is_match (quote "abc") (quote "a**bc") = true;
  is_match (quote "abc") (quote "a**c") = true;
  is_match (quote "abc") (quote "abd**") = false;
  is_match (quote "abc") (quote "ad**") = false;
  is_match (quote "abc") (quote "d**") = false;
  is_match (quote "abc") (quote "**abd") = false;
  is_match (quote "abc") (quote "**bd") = false;
  is_match (quote "abc") (quote "**d") = false;
  is_match (quote "abc") (quote "ab**d") = false;
  is_match (quote "abc") (quote "a**d") = false;
  is_match (quote "abc") (quote "abc**abc") = false;
  is_match (quote "abc") (quote "abc**ab") = false;
  is_match (quote "abc") (quote "abc**a") = false;
  is_match (quote "abc") (quote "abc**def") = false;
  is_match (quote "a*c") (quote "a\*c") = true;
  is_match (quote "a*") (quote "a\*") = true;
  is_match (quote "*a") (quote "\*a") = true;
  is_match (quote "a*") (quote "a*") = true;
  is_match (quote "a\b") (quote "a\\b") = true;
  is_match (quote "a") (quote "\a") = true;
  is_match (quote "a") (quote "a\") = false;
  is_match (quote "a") (quote "a\\") = false;
  is_match (quote "a") (quote "\\a") = false
]%nat.
Proof. repeat (apply Forall_cons; [vm_compute; try split; reflexivity|]). apply Forall_nil. Qed.

(** "find_first_not_escaped" *)
Example runtime_find_first_not_escaped : Forall (fun P => P) [
  find_first_not_escaped (quote "abc") "b"%char = Some 1;
  find_first_not_escaped (quote "abc") "d"%char = None;
  find_first_not_escaped (quote "a\bc") "b"%char = None;
  find_first_not_escaped (quote "a\bc\b") "b"%char = None;
  find_first_not_escaped (quote "a\\bc") "b"%char = Some 3;
  find_first_not_escaped (quote "abc\") "d"%char = None
]%nat.
Proof. repeat (apply Forall_cons; [vm_compute; try split; reflexivity|]). apply Forall_nil. Qed.

(** "escape_all_or_truncate" *)
Example runtime_escape : Forall (fun P => P) [
  escaped_as 5 "abaca" "a" "bb" "bb..." false;
  escaped_as 6 "abaca" "a" "bb" "bbb..." false;
  escaped_as 7 "abaca" "a" "bb" "bbb..." false;
  escaped_as 8 "abaca" "a" "bb" "bbbbbcbb" true;
  escaped_as 9 "abaca" "a" "bb" "bbbbbcbb" true;
  escaped_as 6 "ababaa" "b" "aa" "aaa..." false;
  escaped_as 7 "ababaa" "b" "aa" "aaaa..." false;
  escaped_as 8 "ababaa" "b" "aa" "aaaaaaaa" true;
  escaped_as 9 "ababaa" "b" "aa" "aaaaaaaa" true;
  escaped_as 5 "abaca" "a" "aa" "aa..." false;
  escaped_as 6 "abaca" "a" "aa" "aab..." false;
  escaped_as 7 "abaca" "a" "aa" "aab..." false;
  escaped_as 8 "abaca" "a" "aa" "aabaacaa" true;
  escaped_as 9 "abaca" "a" "aa" "aabaacaa" true;
  escaped_as 5 "abaca" "t" "aa" "abaca" true;
  escaped_as 6 "abaca" "t" "aa" "abaca" true;
  escaped_as 5 "abaca" "a" "abcdefghijklmnopqrst" "..." false;
  escaped_as 5 "abaca" "b" "abcdefghijklmnopqrst" "a..." false
]%nat.
Proof. repeat (apply Forall_cons; [vm_compute; try split; reflexivity|]). apply Forall_nil. Qed.

(** "replace_all", strings of capacities 5 to 10 *)
Example runtime_replace_all : Forall (fun P => P) [
  replaced_as 5 "abaca" "a" "b" "bbbcb" true;
  replaced_as 5 "abaca" "a" "a" "abaca" true;
  replaced_as 5 "abaca" "t" "a" "abaca" true;
  replaced_as 5 "abaca" "abacaabcdefghijklmqrst" "tsrqmlkjihgfedcbaacaba" "abaca" true;
  replaced_as 5 "atata" "ta" "c" "acc" true;
  replaced_as 5 "atata" "at" "c" "cca" true;
  replaced_as 5 "atata" "ta" "t" "att" true;
  replaced_as 5 "taata" "ta" "t" "tat" true;
  replaced_as 5 "atata" "at" "a" "aaa" true;
  replaced_as 5 "abaca" "ta" "a" "abaca" true;
  replaced_as 5 "abaca" "abacaabcdefghijklmqrst" "a" "abaca" true;
  replaced_as 5 "abaca" "abcdefghijklmnopqrstabcdefghijklmnopqrst" "abcdefghijklmnopqrst" "abaca" true;
  replaced_as 5 "abaca" "a" "bb" "bbbbb" false;
  replaced_as 5 "ababa" "b" "aa" "aaaaa" false;
  replaced_as 5 "abaca" "a" "aa" "aabaa" false;
  replaced_as 5 "ababa" "b" "bb" "abbab" false;
  replaced_as 5 "abaca" "t" "aa" "abaca" true;
  replaced_as 5 "abaca" "a" "abcdefghijklmnopqrst" "abcde" false;
  replaced_as 5 "abaca" "abacaabcdefghijklmqrst" "abcdefghijklmnopqrstabcdefghijklmnopqrst" "abaca" true;
  replaced_as 6 "abaca" "a" "b" "bbbcb" true;
  replaced_as 6 "abaca" "a" "a" "abaca" true;
  replaced_as 6 "abaca" "t" "a" "abaca" true;
  replaced_as 6 "abaca" "abacaabcdefghijklmqrst" "tsrqmlkjihgfedcbaacaba" "abaca" true;
  replaced_as 6 "atata" "ta" "c" "acc" true;
  replaced_as 6 "atata" "at" "c" "cca" true;
  replaced_as 6 "atata" "ta" "t" "att" true;
  replaced_as 6 "taata" "ta" "t" "tat" true;
  replaced_as 6 "atata" "at" "a" "aaa" true;
  replaced_as 6 "abaca" "ta" "a" "abaca" true;
  replaced_as 6 "abaca" "abacaabcdefghijklmqrst" "a" "abaca" true;
  replaced_as 6 "abaca" "abcdefghijklmnopqrstabcdefghijklmnopqrst" "abcdefghijklmnopqrst" "abaca" true;
  replaced_as 6 "abaca" "a" "bb" "bbbbbc" false;
  replaced_as 6 "ababa" "b" "aa" "aaaaaa" false;
  replaced_as 6 "abaca" "a" "aa" "aabaac" false;
  replaced_as 6 "ababa" "b" "bb" "abbabb" false;
  replaced_as 6 "abaca" "t" "aa" "abaca" true;
  replaced_as 6 "abaca" "a" "abcdefghijklmnopqrst" "abcdef" false;
  replaced_as 6 "abaca" "abacaabcdefghijklmqrst" "abcdefghijklmnopqrstabcdefghijklmnopqrst" "abaca" true;
  replaced_as 7 "abaca" "a" "b" "bbbcb" true;
  replaced_as 7 "abaca" "a" "a" "abaca" true;
  replaced_as 7 "abaca" "t" "a" "abaca" true;
  replaced_as 7 "abaca" "abacaabcdefghijklmqrst" "tsrqmlkjihgfedcbaacaba" "abaca" true;
  replaced_as 7 "atata" "ta" "c" "acc" true;
  replaced_as 7 "atata" "at" "c" "cca" true;
  replaced_as 7 "atata" "ta" "t" "att" true;
  replaced_as 7 "taata" "ta" "t" "tat" true;
  replaced_as 7 "atata" "at" "a" "aaa" true;
  replaced_as 7 "abaca" "ta" "a" "abaca" true;
  replaced_as 7 "abaca" "abacaabcdefghijklmqrst" "a" "abaca" true;
  replaced_as 7 "abaca" "abcdefghijklmnopqrstabcdefghijklmnopqrst" "abcdefghijklmnopqrst" "abaca" true;
  replaced_as 7 "abaca" "a" "bb" "bbbbbcb" false;
  replaced_as 7 "ababa" "b" "aa" "aaaaaaa" true;
  replaced_as 7 "abaca" "a" "aa" "aabaaca" false;
  replaced_as 7 "ababa" "b" "bb" "abbabba" true;
  replaced_as 7 "abaca" "t" "aa" "abaca" true;
  replaced_as 7 "abaca" "a" "abcdefghijklmnopqrst" "abcdefg" false;
  replaced_as 7 "abaca" "abacaabcdefghijklmqrst" "abcdefghijklmnopqrstabcdefghijklmnopqrst" "abaca" true;
  replaced_as 8 "abaca" "a" "b" "bbbcb" true;
  replaced_as 8 "abaca" "a" "a" "abaca" true;
  replaced_as 8 "abaca" "t" "a" "abaca" true;
  replaced_as 8 "abaca" "abacaabcdefghijklmqrst" "tsrqmlkjihgfedcbaacaba" "abaca" true;
  replaced_as 8 "atata" "ta" "c" "acc" true;
  replaced_as 8 "atata" "at" "c" "cca" true;
  replaced_as 8 "atata" "ta" "t" "att" true;
  replaced_as 8 "taata" "ta" "t" "tat" true;
  replaced_as 8 "atata" "at" "a" "aaa" true;
  replaced_as 8 "abaca" "ta" "a" "abaca" true;
  replaced_as 8 "abaca" "abacaabcdefghijklmqrst" "a" "abaca" true;
  replaced_as 8 "abaca" "abcdefghijklmnopqrstabcdefghijklmnopqrst" "abcdefghijklmnopqrst" "abaca" true;
  replaced_as 8 "abaca" "a" "bb" "bbbbbcbb" true;
  replaced_as 8 "ababa" "b" "aa" "aaaaaaa" true;
  replaced_as 8 "abaca" "a" "aa" "aabaacaa" true;
  replaced_as 8 "ababa" "b" "bb" "abbabba" true;
  replaced_as 8 "abaca" "t" "aa" "abaca" true;
  replaced_as 8 "abaca" "a" "abcdefghijklmnopqrst" "abcdefgh" false;
  replaced_as 8 "abaca" "abacaabcdefghijklmqrst" "abcdefghijklmnopqrstabcdefghijklmnopqrst" "abaca" true;
  replaced_as 9 "abaca" "a" "b" "bbbcb" true;
  replaced_as 9 "abaca" "a" "a" "abaca" true;
  replaced_as 9 "abaca" "t" "a" "abaca" true;
  replaced_as 9 "abaca" "abacaabcdefghijklmqrst" "tsrqmlkjihgfedcbaacaba" "abaca" true;
  replaced_as 9 "atata" "ta" "c" "acc" true;
  replaced_as 9 "atata" "at" "c" "cca" true;
  replaced_as 9 "atata" "ta" "t" "att" true;
  replaced_as 9 "taata" "ta" "t" "tat" true;
  replaced_as 9 "atata" "at" "a" "aaa" true;
  replaced_as 9 "abaca" "ta" "a" "abaca" true;
  replaced_as 9 "abaca" "abacaabcdefghijklmqrst" "a" "abaca" true;
  replaced_as 9 "abaca" "abcdefghijklmnopqrstabcdefghijklmnopqrst" "abcdefghijklmnopqrst" "abaca" true;
  replaced_as 9 "abaca" "a" "bb" "bbbbbcbb" true;
  replaced_as 9 "ababa" "b" "aa" "aaaaaaa" true;
  replaced_as 9 "abaca" "a" "aa" "aabaacaa" true;
  replaced_as 9 "ababa" "b" "bb" "abbabba" true;
  replaced_as 9 "abaca" "t" "aa" "abaca" true;
  replaced_as 9 "abaca" "a" "abcdefghijklmnopqrst" "abcdefghi" false;
  replaced_as 9 "abaca" "abacaabcdefghijklmqrst" "abcdefghijklmnopqrstabcdefghijklmnopqrst" "abaca" true;
  replaced_as 10 "abaca" "a" "b" "bbbcb" true;
  replaced_as 10 "abaca" "a" "a" "abaca" true;
  replaced_as 10 "abaca" "t" "a" "abaca" true;
  replaced_as 10 "abaca" "abacaabcdefghijklmqrst" "tsrqmlkjihgfedcbaacaba" "abaca" true;
  replaced_as 10 "atata" "ta" "c" "acc" true;
  replaced_as 10 "atata" "at" "c" "cca" true;
  replaced_as 10 "atata" "ta" "t" "att" true;
  replaced_as 10 "taata" "ta" "t" "tat" true;
  replaced_as 10 "atata" "at" "a" "aaa" true;
  replaced_as 10 "abaca" "ta" "a" "abaca" true;
  replaced_as 10 "abaca" "abacaabcdefghijklmqrst" "a" "abaca" true;
  replaced_as 10 "abaca" "abcdefghijklmnopqrstabcdefghijklmnopqrst" "abcdefghijklmnopqrst" "abaca" true;
  replaced_as 10 "abaca" "a" "bb" "bbbbbcbb" true;
  replaced_as 10 "ababa" "b" "aa" "aaaaaaa" true;
  replaced_as 10 "abaca" "a" "aa" "aabaacaa" true;
  replaced_as 10 "ababa" "b" "bb" "abbabba" true;
  replaced_as 10 "abaca" "t" "aa" "abaca" true;
  replaced_as 10 "abaca" "a" "abcdefghijklmnopqrst" "abcdefghij" false;
  replaced_as 10 "abaca" "abacaabcdefghijklmqrst" "abcdefghijklmnopqrstabcdefghijklmnopqrst" "abaca" true
]%nat.
Proof. repeat (apply Forall_cons; [vm_compute; try split; reflexivity|]). apply Forall_nil. Qed.

(** "append_or_truncate" and "truncate_end" *)
Example runtime_truncate : Forall (fun P => P) [
  content (append_or_truncate (new_string 1) (map quote ["i="; "1"; "+"; "2"]%string)) = Some (quote ".", false);
  content (append_or_truncate (new_string 2) (map quote ["i="; "1"; "+"; "2"]%string)) = Some (quote "..", false);
  content (append_or_truncate (new_string 3) (map quote ["i="; "1"; "+"; "2"]%string)) = Some (quote "...", false);
  content (append_or_truncate (new_string 4) (map quote ["i="; "1"; "+"; "2"]%string)) = Some (quote "i...", false);
  content (append_or_truncate (new_string 5) (map quote ["i="; "1"; "+"; "2"]%string)) = Some (quote "i=1+2", true);
  content (append_or_truncate (new_string 6) (map quote ["i="; "1"; "+"; "2"]%string)) = Some (quote "i=1+2", true);
  content (do ss <- string_from 1 (quote "") ;; do t <- truncate_end ss ;; Ok (t, true)) = Some (quote ".", true);
  content (do ss <- string_from 1 (quote "a") ;; do t <- truncate_end ss ;; Ok (t, true)) = Some (quote ".", true);
  content (do ss <- string_from 1 (quote "a") ;; do t <- truncate_end ss ;; Ok (t, true)) = Some (quote ".", true);
  content (do ss <- string_from 2 (quote "") ;; do t <- truncate_end ss ;; Ok (t, true)) = Some (quote "..", true);
  content (do ss <- string_from 2 (quote "a") ;; do t <- truncate_end ss ;; Ok (t, true)) = Some (quote "..", true);
  content (do ss <- string_from 2 (quote "ab") ;; do t <- truncate_end ss ;; Ok (t, true)) = Some (quote "..", true);
  content (do ss <- string_from 3 (quote "") ;; do t <- truncate_end ss ;; Ok (t, true)) = Some (quote "...", true);
  content (do ss <- string_from 3 (quote "a") ;; do t <- truncate_end ss ;; Ok (t, true)) = Some (quote "...", true);
  content (do ss <- string_from 3 (quote "abc") ;; do t <- truncate_end ss ;; Ok (t, true)) = Some (quote "...", true);
  content (do ss <- string_from 4 (quote "") ;; do t <- truncate_end ss ;; Ok (t, true)) = Some (quote "...", true);
  content (do ss <- string_from 4 (quote "a") ;; do t <- truncate_end ss ;; Ok (t, true)) = Some (quote "a...", true);
  content (do ss <- string_from 4 (quote "abcd") ;; do t <- truncate_end ss ;; Ok (t, true)) = Some (quote "a...", true);
  content (do ss <- string_from 5 (quote "") ;; do t <- truncate_end ss ;; Ok (t, true)) = Some (quote "...", true);
  content (do ss <- string_from 5 (quote "a") ;; do t <- truncate_end ss ;; Ok (t, true)) = Some (quote "a...", true);
  content (do ss <- string_from 5 (quote "abcde") ;; do t <- truncate_end ss ;; Ok (t, true)) = Some (quote "ab...", true)
]%nat.
Proof. repeat (apply Forall_cons; [vm_compute; try split; reflexivity|]). apply Forall_nil. Qed.

(** "append multiple" *)
Example runtime_append_multiple : Forall (fun P => P) [
  content (append_values (AtRunTime None [] []) (new_string 20) [View (quote ""); View (quote "")]) = Some (quote "", true);
  content (append_values (AtRunTime None [] []) (new_string 20) [View (quote "int="); Integer true 32 123456%Z]) = Some (quote "int=123456", true);
  content (append_values (AtRunTime None [] []) (new_string 20) [View (quote "int="); Integer true 32 123456%Z; View (quote " bool="); Boolean true]) = Some (quote "int=123456 bool=true", true);
  content (append_values (AtRunTime None [] []) (new_string 20) [View (quote "int="); Integer true 32 123456%Z; View (quote " bool="); Boolean true; View (quote " float="); Double 4614256447914709615%Z]) = Some (quote "int=123456 bool=true", false);
  content (append_values (AtRunTime None [] []) (new_string 20) [View (quote "int="); Integer true 32 123456%Z; View (quote ", bool="); Boolean true]) = Some (quote "int=123456, bool=tru", false)
]%nat.
Proof. repeat (apply Forall_cons; [vm_compute; try split; reflexivity|]). apply Forall_nil. Qed.

(** "is_filter_match" *)
Example runtime_filter_name : Forall (fun P => P) [
  is_filter_match_name (quote "abc") (quote "abc") = EI;
  is_filter_match_name (quote "abc") (quote "ab*") = EI;
  is_filter_match_name (quote "abc") (quote "*bc") = EI;
  is_filter_match_name (quote "abc") (quote "*") = EI;
  is_filter_match_name (quote "abc") (quote "def") = IE;
  is_filter_match_name (quote "abc") (quote "~abc") = EE;
  is_filter_match_name (quote "abc") (quote "~ab*") = EE;
  is_filter_match_name (quote "abc") (quote "~*bc") = EE;
  is_filter_match_name (quote "abc") (quote "~*") = EE;
  is_filter_match_name (quote "abc") (quote "~def") = II
]%nat.
Proof. repeat (apply Forall_cons; [vm_compute; try split; reflexivity|]). apply Forall_nil. Qed.

(** "is_filter_match_tag" *)
Example runtime_filter_tags : Forall (fun P => P) [
  is_filter_match_tags 256 (quote "[tag1]") (quote "[tag1]") = Ok EI;
  is_filter_match_tags 256 (quote "[tag1][tag2]") (quote "[tag1]") = Ok EI;
  is_filter_match_tags 256 (quote "[tag1][tag2]") (quote "[tag2]") = Ok EI;
  is_filter_match_tags 256 (quote "[tag1][tag2]") (quote "[tag*]") = Ok EI;
  is_filter_match_tags 256 (quote "[tag1][tag2]") (quote "[tag*]") = Ok EI;
  is_filter_match_tags 256 (quote "[tag1][tag2]") (quote "~[tug*]") = Ok II;
  is_filter_match_tags 256 (quote "[tag1][tag2][.]") (quote "[.]") = Ok EI;
  is_filter_match_tags 256 (quote "[tag1][.tag2]") (quote "[.]") = Ok EI;
  is_filter_match_tags 256 (quote "[.tag1][tag2]") (quote "[.]") = Ok EI;
  is_filter_match_tags 256 (quote "[tag1][tag2]") (quote "~[.]") = Ok II;
  is_filter_match_tags 256 (quote "[tag1][!mayfail]") (quote "[!mayfail]") = Ok EI;
  is_filter_match_tags 256 (quote "[tag1][tag2]") (quote "~[!mayfail]") = Ok II;
  is_filter_match_tags 256 (quote "[tag1][!shouldfail]") (quote "[!shouldfail]") = Ok EI;
  is_filter_match_tags 256 (quote "[tag1][tag2]") (quote "~[!shouldfail]") = Ok II;
  is_filter_match_tags 256 (quote "[tag1]") (quote "[tag2]") = Ok IE;
  is_filter_match_tags 256 (quote "[tag1][tag2]") (quote "[tag3]") = Ok IE;
  is_filter_match_tags 256 (quote "[tag1][tag2]") (quote "[tug*]*") = Ok IE;
  is_filter_match_tags 256 (quote "[tag1][tag2]") (quote "[.]") = Ok IE;
  is_filter_match_tags 256 (quote "[tag1][tag2]") (quote "~[tag1]") = Ok EE;
  is_filter_match_tags 256 (quote "[tag1][tag2]") (quote "~[tag2]") = Ok EE;
  is_filter_match_tags 256 (quote "[.tag1][tag2]") (quote "[.tag1]") = Ok IE;
  is_filter_match_tags 256 (quote "[tag1][tag2][.]") (quote "[.tag1]") = Ok IE;
  is_filter_match_tags 256 (quote "[tag1][tag2][.]") (quote "[.tag2]") = Ok IE;
  is_filter_match_tags 256 (quote "[tag1][tag2]") (quote "[tag1][tag2]") = Ok EI;
  is_filter_match_tags 256 (quote "[tag1][tag2]") (quote "[tag2][tag1]") = Ok EI;
  is_filter_match_tags 256 (quote "[tag1][tag2]") (quote "~[tag3]~[tag4]") = Ok II;
  is_filter_match_tags 256 (quote "[tag1][tag2]") (quote "~[tag4]~[tag3]") = Ok II;
  is_filter_match_tags 256 (quote "[tag1][tag2]") (quote "[tag1]~[tag2]") = Ok EE;
  is_filter_match_tags 256 (quote "[tag1][tag2]") (quote "~[tag2][tag1]") = Ok EE;
  is_filter_match_tags 256 (quote "[tag1][tag2]") (quote "[tag3][tag4]") = Ok IE;
  is_filter_match_tags 256 (quote "[tag1][tag2]") (quote "[tag4][tag3]") = Ok IE;
  is_filter_match_tags 256 (quote "[tag1][tag2][tag3]") (quote "[tag1][tag2]") = Ok EI;
  is_filter_match_tags 256 (quote "[tag1][tag2][tag3]") (quote "[tag2][tag3]") = Ok EI;
  is_filter_match_tags 256 (quote "[tag1][tag2][tag3]") (quote "[tag1][tag3]") = Ok EI
]%nat.
Proof. repeat (apply Forall_cons; [vm_compute; try split; reflexivity|]). apply Forall_nil. Qed.

(** "is_filter_match_id" *)
Example runtime_filter_id : Forall (fun P => P) [
  is_filter_match_id 256 (quote "abc") (quote "[tag1][tag2]") (quote "abc") = Ok EI;
  is_filter_match_id 256 (quote "abc") (quote "[tag1][tag2]") (quote "~abc") = Ok EE;
  is_filter_match_id 256 (quote "abc") (quote "[tag1][tag2]") (quote "ab*") = Ok EI;
  is_filter_match_id 256 (quote "abc") (quote "[tag1][tag2]") (quote "[tag1]") = Ok EI;
  is_filter_match_id 256 (quote "abc") (quote "[tag1][tag2]") (quote "[tag2]") = Ok EI;
  is_filter_match_id 256 (quote "abc") (quote "[tag1][tag2]") (quote "[tag3]") = Ok IE;
  is_filter_match_id 256 (quote "abc") (quote "[tag1][tag2]") (quote "~[tag3]") = Ok II;
  is_filter_match_id 256 (quote "[weird]") (quote "[tag1][tag2]") (quote "\[weird]") = Ok EI;
  is_filter_match_id 256 (quote "[weird]") (quote "[tag1][tag2]") (quote "[weird]") = Ok IE;
  is_filter_match_id 256 (quote "a,b") (quote "[tag1][tag2]") (quote "a\,b") = Ok EI;
  is_filter_match_id 256 (quote "a,b") (quote "[tag1][tag2]") (quote "ab\,") = Ok IE;
  is_filter_match_id 256 (quote "a,b") (quote "[tag1][tag2]") (quote "ab\") = Ok IE;
  is_filter_match_id 256 (quote "abc") (quote "[tag1][tag2]") (quote "ab*,cd*") = Ok EI;
  is_filter_match_id 256 (quote "abc") (quote "[tag1][tag2]") (quote "cd*,ab*") = Ok EI;
  is_filter_match_id 256 (quote "abc") (quote "[tag1][tag2]") (quote "~db*,cd*") = Ok II;
  is_filter_match_id 256 (quote "abc") (quote "[tag1][tag2]") (quote "cd*,~db*") = Ok II;
  is_filter_match_id 256 (quote "abc") (quote "[tag1][tag2]") (quote "cd*,~ab*") = Ok EE;
  is_filter_match_id 256 (quote "abc") (quote "[tag1][tag2]") (quote "~ab*,cd*") = Ok EE;
  is_filter_match_id 256 (quote "abc") (quote "[tag1][tag2]") (quote "cd*,db*") = Ok IE;
  is_filter_match_id 256 (quote "abc") (quote "[tag1][tag2]") (quote "db*,cd*") = Ok IE;
  is_filter_match_id 256 (quote "abc") (quote "[tag1][tag2]") (quote "ab*,[tag3]") = Ok EI;
  is_filter_match_id 256 (quote "abc") (quote "[tag1][tag2]") (quote "db*,[tag2]") = Ok EI;
  is_filter_match_id 256 (quote "abc") (quote "[tag1][tag2]") (quote "db*,~[tag3]") = Ok II;
  is_filter_match_id 256 (quote "abc") (quote "[tag1][tag2]") (quote "db*,~[tag1]") = Ok EE;
  is_filter_match_id 256 (quote "abc") (quote "[tag1][tag2]") (quote "ab*,") = Ok EI;
  is_filter_match_id 256 (quote "") (quote "[tag1][tag2]") (quote "ab*,") = Ok EI
]%nat.
Proof. repeat (apply Forall_cons; [vm_compute; try split; reflexivity|]). apply Forall_nil. Qed.
