(** * VectorsPublic4: test vectors of /repo/tests/test-vectors, run through the model (see [VectorCheck]).

    Each definition holds the result, computed by the virtual machine when this file is built, of one
    vector; the last example makes the build fail unless every result is [true].  This tests the model
    against the vectors of the repository; it is not part of any proof. *)
From Verif Require Import Bytes Version VectorCheck.

(** v4.json, 4-S-1 *)
Definition vec_4_S_1 : bool := Eval vm_compute in
  check_public V4
    (hex "1eb9dbbbbc047c03fd70604e0071f0987e16b28b757225c11f00415d0e20b1a2")
    (hex "b4cbfb43df4ce210727d953e4a713307fa19bb7d9f85041438d9e11b942a37741eb9dbbbbc047c03fd70604e0071f0987e16b28b757225c11f00415d0e20b1a2")
    (str "v4.public.eyJkYXRhIjoidGhpcyBpcyBhIHNpZ25lZCBtZXNzYWdlIiwiZXhwIjoiMjAyMi0wMS0wMVQwMDowMDowMCswMDowMCJ9bg_XBBzds8lTZShVlwwKSgeKpLT3yukTw6JUz3W4h_ExsQV-P0V54zemZDcAxFaSeef1QlXEFtkqxT1ciiQEDA")
    (str "{""data"":""this is a signed message"",""exp"":""2022-01-01T00:00:00+00:00""}")
    (str "") (str "").

(** v4.json, 4-S-2 *)
Definition vec_4_S_2 : bool := Eval vm_compute in
  check_public V4
    (hex "1eb9dbbbbc047c03fd70604e0071f0987e16b28b757225c11f00415d0e20b1a2")
    (hex "b4cbfb43df4ce210727d953e4a713307fa19bb7d9f85041438d9e11b942a37741eb9dbbbbc047c03fd70604e0071f0987e16b28b757225c11f00415d0e20b1a2")
    (str "v4.public.eyJkYXRhIjoidGhpcyBpcyBhIHNpZ25lZCBtZXNzYWdlIiwiZXhwIjoiMjAyMi0wMS0wMVQwMDowMDowMCswMDowMCJ9v3Jt8mx_TdM2ceTGoqwrh4yDFn0XsHvvV_D0DtwQxVrJEBMl0F2caAdgnpKlt4p7xBnx1HcO-SPo8FPp214HDw.eyJraWQiOiJ6VmhNaVBCUDlmUmYyc25FY1Q3Z0ZUaW9lQTlDT2NOeTlEZmdMMVc2MGhhTiJ9")
    (str "{""data"":""this is a signed message"",""exp"":""2022-01-01T00:00:00+00:00""}")
    (str "{""kid"":""zVhMiPBP9fRf2snEcT7gFTioeA9COcNy9DfgL1W60haN""}") (str "").

(** v4.json, 4-S-3 *)
Definition vec_4_S_3 : bool := Eval vm_compute in
  check_public V4
    (hex "1eb9dbbbbc047c03fd70604e0071f0987e16b28b757225c11f00415d0e20b1a2")
    (hex "b4cbfb43df4ce210727d953e4a713307fa19bb7d9f85041438d9e11b942a37741eb9dbbbbc047c03fd70604e0071f0987e16b28b757225c11f00415d0e20b1a2")
    (str "v4.public.eyJkYXRhIjoidGhpcyBpcyBhIHNpZ25lZCBtZXNzYWdlIiwiZXhwIjoiMjAyMi0wMS0wMVQwMDowMDowMCswMDowMCJ9NPWciuD3d0o5eXJXG5pJy-DiVEoyPYWs1YSTwWHNJq6DZD3je5gf-0M4JR9ipdUSJbIovzmBECeaWmaqcaP0DQ.eyJraWQiOiJ6VmhNaVBCUDlmUmYyc25FY1Q3Z0ZUaW9lQTlDT2NOeTlEZmdMMVc2MGhhTiJ9")
    (str "{""data"":""this is a signed message"",""exp"":""2022-01-01T00:00:00+00:00""}")
    (str "{""kid"":""zVhMiPBP9fRf2snEcT7gFTioeA9COcNy9DfgL1W60haN""}") (str "{""test-vector"":""4-S-3""}").

(** v4.json, 4-F-1 *)
Definition vec_4_F_1 : bool := Eval vm_compute in
  check_public_fail V4
    (hex "1eb9dbbbbc047c03fd70604e0071f0987e16b28b757225c11f00415d0e20b1a2")
    (str "v4.local.vngXfCISbnKgiP6VWGuOSlYrFYU300fy9ijW33rznDYgxHNPwWluAY2Bgb0z54CUs6aYYkIJ-bOOOmJHPuX_34Agt_IPlNdGDpRdGNnBz2MpWJvB3cttheEc1uyCEYltj7wBQQYX.YXJiaXRyYXJ5LXN0cmluZy10aGF0LWlzbid0LWpzb24")
    (str "arbitrary-string-that-isn't-json") (str "{""test-vector"":""4-F-1""}").

Example VectorsPublic4_pass :
  forallb (fun b => b)
    [vec_4_S_1;
     vec_4_S_2;
     vec_4_S_3;
     vec_4_F_1] = true.
Proof. reflexivity. Qed.
