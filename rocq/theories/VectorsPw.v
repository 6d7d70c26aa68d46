(** * VectorsPw: test vectors of /repo/tests/test-vectors, run through the model (see [VectorCheck]).

    Each definition holds the result, computed by the virtual machine when this file is built, of one
    vector; the last example makes the build fail unless every result is [true].  This tests the model
    against the vectors of the repository; it is not part of any proof. 
    Those with 10000 PBKDF2 iterations or 64 MiB and more of Argon2 memory are too slow for the kernel's evaluator:
    only their text form is checked. *)
From Verif Require Import Bytes Version VectorCheck.

(** k3.local-pw.json *)
Definition vec_k3_local_pw_1 : bool := Eval vm_compute in
  check_pw V3 WLocal (str "636f727265637420686f727365206261747465727920737461706c65")
    (str "k3.local-pw.meWTPJohkeLsaKvlgigDksM935uSCUO3jvjEEHAK28QAAAPoNoLFUMJwo8QHOp5bJpbNzk-ZD_Q6jPtk0XhX4ctVhZnJ3ydru5AuXObwRudmG_RNK3PsJ7kpLSw15Vncc5vmGIkae4DKmBmPI1h3PmOxMGX_hj9DNfu1MIEEm9ukhKQq")
    (hex "707172737475767778797a7b7c7d7e7f808182838485868788898a8b8c8d8e8f").

(** k3.local-pw.json, text only *)
Definition vec_k3_local_pw_2 : bool := Eval vm_compute in
  check_pw_text_v3 WLocal
    (str "k3.local-pw.BZtl8KfhFR8CCZp6hB0V2yMWttTMpK_U8HiKxnuvMI0AACcQIm4KcJGvG1kfptqCbQxzQUOp72AzgtmhCLVP1mn3orDRJIpoDzRj82dc1cMnANbUsEdcYVG8xzSuCt99zfCjQnQ2rIKbKRM66gafzcSWmD9iMoY3W6KUaN56t0P-ODV2") 10000.

(** k3.local-pw.json, text only *)
Definition vec_k3_local_pw_3 : bool := Eval vm_compute in
  check_pw_text_v3 WLocal
    (str "k3.local-pw.a5cPboLhKgtNb_5C5FXniQuWVgChPXIwM4UKSEAjW3kAACcQzSQgm0Wh87-zAggZvwElhVYI__F7e0nCGL_tVsArrRMpKlkMfZrdi5d7ilpbqogeuiiKcHE9qBu2jTPYywyauZ4VymULdHlGn8fLCBZUGyNzXMbvb0qZS9kecwa4kQzP") 10000.

(** k3.local-pw.json *)
Definition vec_k3_local_pw_fail_1 : bool := Eval vm_compute in
  check_pw_fail V3 WLocal (str "636f727265637420686f727365206261747465727920737461706c66")
    (str "k3.local-pw.meWTPJohkeLsaKvlgigDksM935uSCUO3jvjEEHAK28QAAAPoNoLFUMJwo8QHOp5bJpbNzk-ZD_Q6jPtk0XhX4ctVhZnJ3ydru5AuXObwRudmG_RNK3PsJ7kpLSw15Vncc5vmGIkae4DKmBmPI1h3PmOxMGX_hj9DNfu1MIEEm9ukhKQq").

(** k3.local-pw.json *)
Definition vec_k3_local_pw_fail_2 : bool := Eval vm_compute in
  check_pw_fail V3 WLocal (str "636f727265637420686f727365206261747465727920737461706c65")
    (str "k3.local-pw.meWTPJohkeLsaKvlgigDksM935uSCUO3jvjEEHAK28QAAAPoNoLFUMJwo8QHOp5bJpbNzk-ZD_Q6jPtk0XhX4ctVhZnJ3ydru5AuXObwRudmG_RNK3PsJ7kpLSw15Vncc5vmGIkae4DKmBmPI1h3PmOxMGX_hj9DNfu1MIEEm1vkhLQr").

(** k3.local-pw.json *)
Definition vec_k3_local_pw_fail_3 : bool := Eval vm_compute in
  check_pw_fail V3 WLocal (str "636f727265637420686f727365206261747465727920737461706c65")
    (str "k4.local-pw.cyacmXuslYEP8Xyheh9i-AAAAAAQAAAAAAAAAwAAAAEJh5jS-CAQP9grqo6xhuNMwmjcs6yTAvBjOW2HwZyBrBd0NNs6btknqo-6e-tyXJebU5S5918-es1Y9jhF1dOjMW0gDrsWkPoWT3Vy_poNxjIQHxHOHXaa").

(** k3.secret-pw.json *)
Definition vec_k3_secret_pw_1 : bool := Eval vm_compute in
  check_pw V3 WSecret (str "636f727265637420686f727365206261747465727920737461706c65")
    (str "k3.secret-pw.kgGHkPhCK_nclk8kpCqJuTPM7BYfGxSwdeXETNnRglIAAAPonBRPeN3eNgUEMZAY9mLaQPXmg6zMls48IjN4429EoIyS2No-EGpKv6eRb_Zh65PdEec1pq0SaMWb434A2eqd4vt4_wcTfdobxiNovASIgyry03qnjx29FmuZ2bIvNzh-YExE_AA7UFDzs6BHom8F9Q")
    (hex "707172737475767778797a7b7c7d7e7f808182838485868788898a8b8c8d8e8f909192939495969798999a9b9c9d9e9f").

(** k3.secret-pw.json, text only *)
Definition vec_k3_secret_pw_2 : bool := Eval vm_compute in
  check_pw_text_v3 WSecret
    (str "k3.secret-pw.LajP_XFziwwUW8t0xppL3ecIgaOzfSEx-5-UQG36jJ8AACcQUeD46ydUwIkMOqkXWFvacyf_eaH1BTMlJsdCy6ZhemmaFMZTclOD9LrOwCVnmhlCDQEePilxQEfvPsRM5cL_yxx1bWL0wjS4GAQABQiCvGyQTi_LGlbMnYuiZfxWgpqNJpAI6jx71m6s3f6wZIg68Q") 10000.

(** k3.secret-pw.json, text only *)
Definition vec_k3_secret_pw_3 : bool := Eval vm_compute in
  check_pw_text_v3 WSecret
    (str "k3.secret-pw._67v-WS5Jcez0HggRU2WqRDQewjO2cTKfLwsv2smSd0AACcQC-kvhegUybh2VVNQ4TU68Uqlg9ZOlPzmT36bpDsFc1vF2Lw5Jg8WRRuX1Bg3KT6GN1sUoAW95iuc2OnyIXNpDKXIA6FRPKkpztCVHiWFhEtiIUeGOg8hh11eueUNz4GmfCH91TNz2KtbAvy1TXT5Lw") 10000.

(** k3.secret-pw.json, text only *)
Definition vec_k3_secret_pw_fail_1 : bool := Eval vm_compute in
  check_pw_text_v3 WSecret
    (str "k3.secret-pw.LajP_XFziwwUW8t0xppL3ecIgaOzfSEx-5-UQG36jJ8AACcQUeD46ydUwIkMOqkXWFvacyf_eaH1BTMlJsdCy6ZhemmaFMZTclOD9LrOwCVnmhlCDQEePilxQEfvPsRM5cL_yxx1bWL0wjS4GAQABQiCvGyQTi_LGlbMnYuiZfxWgpqNJpAI6jx71m6s3f6wZIg68Q") 10000.

(** k3.secret-pw.json *)
Definition vec_k3_secret_pw_fail_2 : bool := Eval vm_compute in
  check_pw_fail V3 WSecret (str "636f727265637420686f727365206261747465727920737461706c65")
    (str "k3.secret-pw.LajP_XFziwwUW8t0xppL3ecIgaOzfSEx-5-UQG36jJ8AACcQUeD46ydUwIkMOqkXWFvacyf_eaH1BTMlJsdCy6ZhemmaFMZTclOD9LrOwCVnmhlCDQEePilxQEfvPsRM5cL_yxx1bWL0wjS4GAQABQiCvGyQTi_LGlbMnYuiZfxWgpqNJpAI6jx71m6s4f6wZIg79R").

(** k3.secret-pw.json *)
Definition vec_k3_secret_pw_fail_3 : bool := Eval vm_compute in
  check_pw_fail V3 WSecret (str "636f727265637420686f727365206261747465727920737461706c65")
    (str "k4.secret-pw.1n54ImYiJUSDhTn7vzBI4QAAAAAQAAAAAAAAAwAAAAFBZythnpR02Zza64_y9DuKHeyZVEP_vZx0Y721aIry1rZc70cR08Jb2rgV4pcqR9in25TvA4pV7L4kT3r-0b-5a8Z7wk35D0zOnPLEJloAHf2XEYGleFReV2-tiV1T79G6OhlATgd-bJbXjRqlEOCsk_-pRdSsCeE").

(** k4.local-pw.json, text only *)
Definition vec_k4_local_pw_1 : bool := Eval vm_compute in
  check_pw_text_v4 WLocal
    (str "k4.local-pw.9VvzoqE_i23NOqsP9xoijQAAAAAEAAAAAAAAAgAAAAG_uxDZC-NsYyOW8OUOqISJqgHN8xIfAXiPfmFTfB4GPidUzm4aKzMGJmZtRPeyZCV11MxEJS3VMIRHXxYsfUQsmWLALpFwqUhxZdk_ymFcK2Nk0-N7CVp-") 67108864 2.

(** k4.local-pw.json, text only *)
Definition vec_k4_local_pw_2 : bool := Eval vm_compute in
  check_pw_text_v4 WLocal
    (str "k4.local-pw.cyacmXuslYEP8Xyheh9i-AAAAAAQAAAAAAAAAwAAAAEJh5jS-CAQP9grqo6xhuNMwmjcs6yTAvBjOW2HwZyBrBd0NNs6btknqo-6e-tyXJebU5S5918-es1Y9jhF1dOjMW0gDrsWkPoWT3Vy_poNxjIQHxHOHXaa") 268435456 3.

(** k4.local-pw.json, text only *)
Definition vec_k4_local_pw_3 : bool := Eval vm_compute in
  check_pw_text_v4 WLocal
    (str "k4.local-pw.1zXpYe7LSsL95YKf92kkJAAAAAAQAAAAAAAAAwAAAAG9WUsB_V2gVnTE1cCAs7RrS9-j22y2rcNixSycUw4_cryOPztPM8vASZw_BYHlQHxXqCl7wBS9NkUnMLa6b8e3ZNeaGiqaGFxRpmOK1Hal4GpHys6lC2Jw") 268435456 3.

(** k4.local-pw.json, text only *)
Definition vec_k4_local_pw_fail_1 : bool := Eval vm_compute in
  check_pw_text_v4 WLocal
    (str "k4.local-pw.cyacmXuslYEP8Xyheh9i-AAAAAAQAAAAAAAAAwAAAAEJh5jS-CAQP9grqo6xhuNMwmjcs6yTAvBjOW2HwZyBrBd0NNs6btknqo-6e-tyXJebU5S5918-es1Y9jhF1dOjMW0gDrsWkPoWT3Vy_poNxjIQHxHOHXaa") 268435456 3.

(** k4.local-pw.json, text only *)
Definition vec_k4_local_pw_fail_2 : bool := Eval vm_compute in
  check_pw_text_v4 WLocal
    (str "k4.local-pw.cyacmXuslYEP8Xyheh9i-AAAAAAQAAAAAAAAAwAAAAEJh5jS-CAQP9grqo6xhuNMwmjcs6yTAvBjOW2HwZyBrBd0NNs6btknqo-6e-tyXJebU5S5918-es1Y9jhF1dOjMW0gDrsWkPoWT3Vy_poNxjIQHyHOHXbb") 268435456 3.

(** k4.local-pw.json *)
Definition vec_k4_local_pw_fail_3 : bool := Eval vm_compute in
  check_pw_fail V4 WLocal (str "636f727265637420686f727365206261747465727920737461706c65")
    (str "k3.local-pw.BZtl8KfhFR8CCZp6hB0V2yMWttTMpK_U8HiKxnuvMI0AACcQIm4KcJGvG1kfptqCbQxzQUOp72AzgtmhCLVP1mn3orDRJIpoDzRj82dc1cMnANbUsEdcYVG8xzSuCt99zfCjQnQ2rIKbKRM66gafzcSWmD9iMoY3W6KUaN56t0P-ODV2").

(** k4.secret-pw.json, text only *)
Definition vec_k4_secret_pw_1 : bool := Eval vm_compute in
  check_pw_text_v4 WSecret
    (str "k4.secret-pw.g5CZn27bLJQkPVOYjrWEQAAAAAAEAAAAAAAAAgAAAAGpohE13nAyCtWfj2Xf3rgORRrE1X0qw2U1FWSJm_6snSbneAqz59FTgsmUR2cNmC41rauCVViAEijox_mY4iJzIUOv34cHkLLIZ_te-FpqKDK0bFtH-rgdFkiy-RjCG0EN349NFFqCZHu7gOlQw98nyeRwWelHCJE") 67108864 2.

(** k4.secret-pw.json, text only *)
Definition vec_k4_secret_pw_2 : bool := Eval vm_compute in
  check_pw_text_v4 WSecret
    (str "k4.secret-pw.1n54ImYiJUSDhTn7vzBI4QAAAAAQAAAAAAAAAwAAAAFBZythnpR02Zza64_y9DuKHeyZVEP_vZx0Y721aIry1rZc70cR08Jb2rgV4pcqR9in25TvA4pV7L4kT3r-0b-5a8Z7wk35D0zOnPLEJloAHf2XEYGleFReV2-tiV1T79G6OhlATgd-bJbXjRqlEOCsk_-pRdSsCeE") 268435456 3.

(** k4.secret-pw.json, text only *)
Definition vec_k4_secret_pw_3 : bool := Eval vm_compute in
  check_pw_text_v4 WSecret
    (str "k4.secret-pw.l7bNRB3P5Pwp2FN11-O5dgAAAAAQAAAAAAAAAwAAAAGMe2vxUAZ5quIB-7KCN6_zP_rFqqPmgaVI8ut4xvM2QZQ7QNpr4MlmZ52UulTstEf0uT8vyWzn7bthOALA2ZH_0iBiG9pPWqD8UzmuUjUP5Yi92B_5pUw3DJ0vwNP-GgvjHQObQXLsWPfe_exECoYAWdkI6q-VtSM") 268435456 3.

(** k4.secret-pw.json, text only *)
Definition vec_k4_secret_pw_fail_1 : bool := Eval vm_compute in
  check_pw_text_v4 WSecret
    (str "k4.secret-pw.1n54ImYiJUSDhTn7vzBI4QAAAAAQAAAAAAAAAwAAAAFBZythnpR02Zza64_y9DuKHeyZVEP_vZx0Y721aIry1rZc70cR08Jb2rgV4pcqR9in25TvA4pV7L4kT3r-0b-5a8Z7wk35D0zOnPLEJloAHf2XEYGleFReV2-tiV1T79G6OhlATgd-bJbXjRqlEOCsk_-pRdSsCeE") 268435456 3.

(** k4.secret-pw.json *)
Definition vec_k4_secret_pw_fail_2 : bool := Eval vm_compute in
  check_pw_fail V4 WSecret (str "636f727265637420686f727365206261747465727920737461706c65")
    (str "k4.secret-pw.1n54ImYiJUSDhTn7vzBI4QAAAAAQAAAAAAAAAwAAAAFBZythnpR02Zza64_y9DuKHeyZVEP_vZx0Y721aIry1rZc70cR08Jb2rgV4pcqR9in25TvA4pV7L4kT3r-0b-5a8Z7wk35D0zOnPLEJloAHf2XEYGleFReV2-tiV1T79G6OhlATgd-bJbXjRqlEOCsk_-qRdStDfF").

(** k4.secret-pw.json *)
Definition vec_k4_secret_pw_fail_3 : bool := Eval vm_compute in
  check_pw_fail V4 WSecret (str "636f727265637420686f727365206261747465727920737461706c65")
    (str "k3.secret-pw.LajP_XFziwwUW8t0xppL3ecIgaOzfSEx-5-UQG36jJ8AACcQUeD46ydUwIkMOqkXWFvacyf_eaH1BTMlJsdCy6ZhemmaFMZTclOD9LrOwCVnmhlCDQEePilxQEfvPsRM5cL_yxx1bWL0wjS4GAQABQiCvGyQTi_LGlbMnYuiZfxWgpqNJpAI6jx71m6s3f6wZIg68Q").

Example VectorsPw_pass :
  forallb (fun b => b)
    [vec_k3_local_pw_1;
     vec_k3_local_pw_2;
     vec_k3_local_pw_3;
     vec_k3_local_pw_fail_1;
     vec_k3_local_pw_fail_2;
     vec_k3_local_pw_fail_3;
     vec_k3_secret_pw_1;
     vec_k3_secret_pw_2;
     vec_k3_secret_pw_3;
     vec_k3_secret_pw_fail_1;
     vec_k3_secret_pw_fail_2;
     vec_k3_secret_pw_fail_3;
     vec_k4_local_pw_1;
     vec_k4_local_pw_2;
     vec_k4_local_pw_3;
     vec_k4_local_pw_fail_1;
     vec_k4_local_pw_fail_2;
     vec_k4_local_pw_fail_3;
     vec_k4_secret_pw_1;
     vec_k4_secret_pw_2;
     vec_k4_secret_pw_3;
     vec_k4_secret_pw_fail_1;
     vec_k4_secret_pw_fail_2;
     vec_k4_secret_pw_fail_3] = true.
Proof. reflexivity. Qed.
