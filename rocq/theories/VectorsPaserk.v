(** * VectorsPaserk: test vectors of /repo/tests/test-vectors, run through the model (see [VectorCheck]).

    Each definition holds the result, computed by the virtual machine when this file is built, of one
    vector; the last example makes the build fail unless every result is [true].  This tests the model
    against the vectors of the repository; it is not part of any proof. *)
From Verif Require Import Bytes Version VectorCheck.

(** k3.lid.json *)
Definition vec_k3_lid_1 : bool := Eval vm_compute in
  check_id V3 Local
    (hex "0000000000000000000000000000000000000000000000000000000000000000")
    (str "k3.lid.c2Wpke9KunV6-Tow8dV1wsvVFRkjcTYt_7ZzOtIDRFpM").

(** k3.lid.json *)
Definition vec_k3_lid_2 : bool := Eval vm_compute in
  check_id V3 Local
    (hex "707172737475767778797a7b7c7d7e7f808182838485868788898a8b8c8d8e8f")
    (str "k3.lid.5GB-DfqfPOIMr0-y4IV8323vrjMt3mZMh_R3J3raH38l").

(** k3.lid.json *)
Definition vec_k3_lid_3 : bool := Eval vm_compute in
  check_id V3 Local
    (hex "707172737475767778797a7b7c7d7e7f808182838485868788898a8b8c8d8e90")
    (str "k3.lid.Gd3T6cJNElhwD4gu9JXlaysLNClYmFTD6GRUnXRotCEr").

(** k3.pid.json *)
Definition vec_k3_pid_1 : bool := Eval vm_compute in
  check_id V3 Public
    (hex "02000000000000000000000000000000000000000000000000000000000000000000000000000000000000000000000000")
    (str "k3.pid.mL4lGxNG7cz128frmpn83_76V9C7LmV2sHAMtJ8vIdwG").

(** k3.pid.json *)
Definition vec_k3_pid_2 : bool := Eval vm_compute in
  check_id V3 Public
    (hex "02707172737475767778797a7b7c7d7e7f808182838485868788898a8b8c8d8e8f909192939495969798999a9b9c9d9e9f")
    (str "k3.pid.gnwg7IkzZyQF9wJgLLT0OpbdMT7BYmdQoG2u-xXpeeHz").

(** k3.sid.json *)
Definition vec_k3_sid_1 : bool := Eval vm_compute in
  check_id V3 Secret
    (hex "000000000000000000000000000000000000000000000000000000000000000000000000000000000000000000000001")
    (str "k3.sid.DjlX1m4BBFtsnbwzw1zv_x0yRcrZpsvdr_gIxh_hg_Rv").

(** k3.sid.json *)
Definition vec_k3_sid_2 : bool := Eval vm_compute in
  check_id V3 Secret
    (hex "707172737475767778797a7b7c7d7e7f808182838485868788898a8b8c8d8e8f909192939495969798999a9b9c9d9e9f")
    (str "k3.sid.mNalRnF8T60OMPdi1TWSMcub-51v3Au2VB1MOqPrw8zG").

(** k3.sid.json *)
Definition vec_k3_sid_3 : bool := Eval vm_compute in
  check_id V3 Secret
    (hex "707172737475767778797a7b7c7d7e7f808182838485868788898a8b8c8d8e8f909192939495969798999a9b9c9d9ea0")
    (str "k3.sid.2y01jpWJruAPv3epVJkTtDDvdHLsU3luYV9cvGgsR4C6").

(** k3.local.json *)
Definition vec_k3_local_1 : bool := Eval vm_compute in
  check_key V3 Local
    (hex "0000000000000000000000000000000000000000000000000000000000000000")
    (str "k3.local.AAAAAAAAAAAAAAAAAAAAAAAAAAAAAAAAAAAAAAAAAAA").

(** k3.local.json *)
Definition vec_k3_local_2 : bool := Eval vm_compute in
  check_key V3 Local
    (hex "707172737475767778797a7b7c7d7e7f808182838485868788898a8b8c8d8e8f")
    (str "k3.local.cHFyc3R1dnd4eXp7fH1-f4CBgoOEhYaHiImKi4yNjo8").

(** k3.local.json *)
Definition vec_k3_local_3 : bool := Eval vm_compute in
  check_key V3 Local
    (hex "707172737475767778797a7b7c7d7e7f808182838485868788898a8b8c8d8e90")
    (str "k3.local.cHFyc3R1dnd4eXp7fH1-f4CBgoOEhYaHiImKi4yNjpA").

(** k3.local.json *)
Definition vec_k3_local_fail_1 : bool := Eval vm_compute in
  check_key_fail V3 Local
    (str "k3.local.HFyc3R1dnd4eXp7fH1-f4CBgoOEhYaHiImKi4yNjo8").

(** k3.local.json *)
Definition vec_k3_local_fail_2 : bool := Eval vm_compute in
  check_key_fail V3 Local
    (str "k4.local.cHFyc3R1dnd4eXp7fH1-f4CBgoOEhYaHiImKi4yNjo8").

(** k3.public.json *)
Definition vec_k3_public_1 : bool := Eval vm_compute in
  check_key V3 Public
    (hex "02000000000000000000000000000000000000000000000000000000000000000000000000000000000000000000000000")
    (str "k3.public.AgAAAAAAAAAAAAAAAAAAAAAAAAAAAAAAAAAAAAAAAAAAAAAAAAAAAAAAAAAAAAAAAA").

(** k3.public.json *)
Definition vec_k3_public_2 : bool := Eval vm_compute in
  check_key V3 Public
    (hex "02707172737475767778797a7b7c7d7e7f808182838485868788898a8b8c8d8e8f909192939495969798999a9b9c9d9e9f")
    (str "k3.public.AnBxcnN0dXZ3eHl6e3x9fn-AgYKDhIWGh4iJiouMjY6PkJGSk5SVlpeYmZqbnJ2enw").

(** k3.secret.json *)
Definition vec_k3_secret_1 : bool := Eval vm_compute in
  check_key V3 Secret
    (hex "000000000000000000000000000000000000000000000000000000000000000000000000000000000000000000000001")
    (str "k3.secret.AAAAAAAAAAAAAAAAAAAAAAAAAAAAAAAAAAAAAAAAAAAAAAAAAAAAAAAAAAAAAAAB").

(** k3.secret.json *)
Definition vec_k3_secret_2 : bool := Eval vm_compute in
  check_key V3 Secret
    (hex "707172737475767778797a7b7c7d7e7f808182838485868788898a8b8c8d8e8f909192939495969798999a9b9c9d9e9f")
    (str "k3.secret.cHFyc3R1dnd4eXp7fH1-f4CBgoOEhYaHiImKi4yNjo-QkZKTlJWWl5iZmpucnZ6f").

(** k3.secret.json *)
Definition vec_k3_secret_3 : bool := Eval vm_compute in
  check_key V3 Secret
    (hex "707172737475767778797a7b7c7d7e7f808182838485868788898a8b8c8d8e8f909192939495969798999a9b9c9d9ea0")
    (str "k3.secret.cHFyc3R1dnd4eXp7fH1-f4CBgoOEhYaHiImKi4yNjo-QkZKTlJWWl5iZmpucnZ6g").

(** k4.lid.json *)
Definition vec_k4_lid_1 : bool := Eval vm_compute in
  check_id V4 Local
    (hex "0000000000000000000000000000000000000000000000000000000000000000")
    (str "k4.lid.bqltbNc4JLUAmc9Xtpok-fBuI0dQN5_m3CD9W_nbh559").

(** k4.lid.json *)
Definition vec_k4_lid_2 : bool := Eval vm_compute in
  check_id V4 Local
    (hex "707172737475767778797a7b7c7d7e7f808182838485868788898a8b8c8d8e8f")
    (str "k4.lid.iVtYQDjr5gEijCSjJC3fQaJm7nCeQSeaty0Jixy8dbsk").

(** k4.lid.json *)
Definition vec_k4_lid_3 : bool := Eval vm_compute in
  check_id V4 Local
    (hex "707172737475767778797a7b7c7d7e7f808182838485868788898a8b8c8d8e90")
    (str "k4.lid.-v0wjDR1FVxNT2to41Ay1P4_8X6HIxnybX1nZ1a4FCTm").

(** k4.pid.json *)
Definition vec_k4_pid_1 : bool := Eval vm_compute in
  check_id V4 Public
    (hex "0000000000000000000000000000000000000000000000000000000000000000")
    (str "k4.pid.S_XQmeEwHbbvRmiyfXfHYpLGjXGzjTRSDoT1YtTakWFE").

(** k4.pid.json *)
Definition vec_k4_pid_2 : bool := Eval vm_compute in
  check_id V4 Public
    (hex "b7715bd661458d928654d3e832f53ff5c9480542e0e3d4c9b032c768c7ce6023")
    (str "k4.pid.AGPCOBRB8Pz0CwM8Q_BsUPL48_3f4TlM2sftGv4z93TY").

(** k4.pid.json *)
Definition vec_k4_pid_3 : bool := Eval vm_compute in
  check_id V4 Public
    (hex "a0fbc3dc2f99a538b40fb7616a83cf4276b6cf223fff5a2c2d3236235eb87dc7")
    (str "k4.pid.ALkKEkc7gErKCML_CaLMeO81O8nR57b96ou84jObBonE").

(** k4.sid.json *)
Definition vec_k4_sid_1 : bool := Eval vm_compute in
  check_id V4 Secret
    (hex "00000000000000000000000000000000000000000000000000000000000000003b6a27bcceb6a42d62a3a8d02a6f0d73653215771de243a63ac048a18b59da29")
    (str "k4.sid.YujQ-NvcGquQ0Q-arRf8iYEcXiSOKg2Vk5az-n1lxiUd").

(** k4.sid.json *)
Definition vec_k4_sid_2 : bool := Eval vm_compute in
  check_id V4 Secret
    (hex "707172737475767778797a7b7c7d7e7f808182838485868788898a8b8c8d8e8f1ce56a48c82ff99162a14bc544612674e5d61fb9317e65d4055780fdbcb4dc35")
    (str "k4.sid.gHYyx8y5YzqKEZeYoMDqUOKejdSnY_AWhYZiSCMjR1V5").

(** k4.sid.json *)
Definition vec_k4_sid_3 : bool := Eval vm_compute in
  check_id V4 Secret
    (hex "707172737475767778797a7b7c7d7e7f808182838485868788898a8b8c8d8e9060fe37571a5d6e7d30b15154ce4a9fb92c70c870848f4ccdf1626588097f73f7")
    (str "k4.sid.2_m4h6ZTO3qm_PIpl-eYyAqTbNTgmIPQ85POmUEyZHNd").

(** k4.local.json *)
Definition vec_k4_local_1 : bool := Eval vm_compute in
  check_key V4 Local
    (hex "0000000000000000000000000000000000000000000000000000000000000000")
    (str "k4.local.AAAAAAAAAAAAAAAAAAAAAAAAAAAAAAAAAAAAAAAAAAA").

(** k4.local.json *)
Definition vec_k4_local_2 : bool := Eval vm_compute in
  check_key V4 Local
    (hex "707172737475767778797a7b7c7d7e7f808182838485868788898a8b8c8d8e8f")
    (str "k4.local.cHFyc3R1dnd4eXp7fH1-f4CBgoOEhYaHiImKi4yNjo8").

(** k4.local.json *)
Definition vec_k4_local_3 : bool := Eval vm_compute in
  check_key V4 Local
    (hex "707172737475767778797a7b7c7d7e7f808182838485868788898a8b8c8d8e90")
    (str "k4.local.cHFyc3R1dnd4eXp7fH1-f4CBgoOEhYaHiImKi4yNjpA").

(** k4.local.json *)
Definition vec_k4_local_fail_1 : bool := Eval vm_compute in
  check_key_fail V4 Local
    (str "k4.local.HFyc3R1dnd4eXp7fH1-f4CBgoOEhYaHiImKi4yNjo8").

(** k4.local.json *)
Definition vec_k4_local_fail_2 : bool := Eval vm_compute in
  check_key_fail V4 Local
    (str "k3.local.cHFyc3R1dnd4eXp7fH1-f4CBgoOEhYaHiImKi4yNjo8").

(** k4.public.json *)
Definition vec_k4_public_1 : bool := Eval vm_compute in
  check_key V4 Public
    (hex "0000000000000000000000000000000000000000000000000000000000000000")
    (str "k4.public.AAAAAAAAAAAAAAAAAAAAAAAAAAAAAAAAAAAAAAAAAAA").

(** k4.public.json *)
Definition vec_k4_public_2 : bool := Eval vm_compute in
  check_key V4 Public
    (hex "b7715bd661458d928654d3e832f53ff5c9480542e0e3d4c9b032c768c7ce6023")
    (str "k4.public.t3Fb1mFFjZKGVNPoMvU_9clIBULg49TJsDLHaMfOYCM").

(** k4.public.json *)
Definition vec_k4_public_3 : bool := Eval vm_compute in
  check_key V4 Public
    (hex "a0fbc3dc2f99a538b40fb7616a83cf4276b6cf223fff5a2c2d3236235eb87dc7")
    (str "k4.public.oPvD3C-ZpTi0D7dhaoPPQna2zyI__1osLTI2I164fcc").

(** k4.secret.json *)
Definition vec_k4_secret_1 : bool := Eval vm_compute in
  check_key V4 Secret
    (hex "00000000000000000000000000000000000000000000000000000000000000003b6a27bcceb6a42d62a3a8d02a6f0d73653215771de243a63ac048a18b59da29")
    (str "k4.secret.AAAAAAAAAAAAAAAAAAAAAAAAAAAAAAAAAAAAAAAAAAA7aie8zrakLWKjqNAqbw1zZTIVdx3iQ6Y6wEihi1naKQ").

(** k4.secret.json *)
Definition vec_k4_secret_2 : bool := Eval vm_compute in
  check_key V4 Secret
    (hex "707172737475767778797a7b7c7d7e7f808182838485868788898a8b8c8d8e8f1ce56a48c82ff99162a14bc544612674e5d61fb9317e65d4055780fdbcb4dc35")
    (str "k4.secret.cHFyc3R1dnd4eXp7fH1-f4CBgoOEhYaHiImKi4yNjo8c5WpIyC_5kWKhS8VEYSZ05dYfuTF-ZdQFV4D9vLTcNQ").

(** k4.secret.json *)
Definition vec_k4_secret_3 : bool := Eval vm_compute in
  check_key V4 Secret
    (hex "707172737475767778797a7b7c7d7e7f808182838485868788898a8b8c8d8e9060fe37571a5d6e7d30b15154ce4a9fb92c70c870848f4ccdf1626588097f73f7")
    (str "k4.secret.cHFyc3R1dnd4eXp7fH1-f4CBgoOEhYaHiImKi4yNjpBg_jdXGl1ufTCxUVTOSp-5LHDIcISPTM3xYmWICX9z9w").

Example VectorsPaserk_pass :
  forallb (fun b => b)
    [vec_k3_lid_1;
     vec_k3_lid_2;
     vec_k3_lid_3;
     vec_k3_pid_1;
     vec_k3_pid_2;
     vec_k3_sid_1;
     vec_k3_sid_2;
     vec_k3_sid_3;
     vec_k3_local_1;
     vec_k3_local_2;
     vec_k3_local_3;
     vec_k3_local_fail_1;
     vec_k3_local_fail_2;
     vec_k3_public_1;
     vec_k3_public_2;
     vec_k3_secret_1;
     vec_k3_secret_2;
     vec_k3_secret_3;
     vec_k4_lid_1;
     vec_k4_lid_2;
     vec_k4_lid_3;
     vec_k4_pid_1;
     vec_k4_pid_2;
     vec_k4_pid_3;
     vec_k4_sid_1;
     vec_k4_sid_2;
     vec_k4_sid_3;
     vec_k4_local_1;
     vec_k4_local_2;
     vec_k4_local_3;
     vec_k4_local_fail_1;
     vec_k4_local_fail_2;
     vec_k4_public_1;
     vec_k4_public_2;
     vec_k4_public_3;
     vec_k4_secret_1;
     vec_k4_secret_2;
     vec_k4_secret_3] = true.
Proof. reflexivity. Qed.
