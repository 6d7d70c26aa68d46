(** * VectorsPublic3: test vectors of /repo/tests/test-vectors, run through the model (see [VectorCheck]).

    Each definition holds the result, computed by the virtual machine when this file is built, of one
    vector; the last example makes the build fail unless every result is [true].  This tests the model
    against the vectors of the repository; it is not part of any proof. *)
From Verif Require Import Bytes Version VectorCheck.

(** v3.json, 3-S-1 *)
Definition vec_3_S_1 : bool := Eval vm_compute in
  check_public V3
    (hex "02fbcb7c69ee1c60579be7a334134878d9c5c5bf35d552dab63c0140397ed14cef637d7720925c44699ea30e72874c72fb")
    (hex "20347609607477aca8fbfbc5e6218455f3199669792ef8b466faa87bdc67798144c848dd03661eed5ac62461340cea96")
    (str "v3.public.eyJkYXRhIjoidGhpcyBpcyBhIHNpZ25lZCBtZXNzYWdlIiwiZXhwIjoiMjAyMi0wMS0wMVQwMDowMDowMCswMDowMCJ9qqEwwrKHKi5lJ7b9MBKc0G4MGZy0ptUiMv3lAUAaz-JY_zjoqBSIxMxhfAoeNYiSyvfUErj76KOPWm1OeNnBPkTSespeSXDGaDfxeIrl3bRrPEIy7tLwLAIsRzsXkfph")
    (str "{""data"":""this is a signed message"",""exp"":""2022-01-01T00:00:00+00:00""}")
    (str "") (str "").

(** v3.json, 3-S-2 *)
Definition vec_3_S_2 : bool := Eval vm_compute in
  check_public V3
    (hex "02fbcb7c69ee1c60579be7a334134878d9c5c5bf35d552dab63c0140397ed14cef637d7720925c44699ea30e72874c72fb")
    (hex "20347609607477aca8fbfbc5e6218455f3199669792ef8b466faa87bdc67798144c848dd03661eed5ac62461340cea96")
    (str "v3.public.eyJkYXRhIjoidGhpcyBpcyBhIHNpZ25lZCBtZXNzYWdlIiwiZXhwIjoiMjAyMi0wMS0wMVQwMDowMDowMCswMDowMCJ9ZWrbGZ6L0MDK72skosUaS0Dz7wJ_2bMcM6tOxFuCasO9GhwHrvvchqgXQNLQQyWzGC2wkr-VKII71AvkLpC8tJOrzJV1cap9NRwoFzbcXjzMZyxQ0wkshxZxx8ImmNWP.eyJraWQiOiJkWWtJU3lseFFlZWNFY0hFTGZ6Rjg4VVpyd2JMb2xOaUNkcHpVSEd3OVVxbiJ9")
    (str "{""data"":""this is a signed message"",""exp"":""2022-01-01T00:00:00+00:00""}")
    (str "{""kid"":""dYkISylxQeecEcHELfzF88UZrwbLolNiCdpzUHGw9Uqn""}") (str "").

(** v3.json, 3-S-3 *)
Definition vec_3_S_3 : bool := Eval vm_compute in
  check_public V3
    (hex "02fbcb7c69ee1c60579be7a334134878d9c5c5bf35d552dab63c0140397ed14cef637d7720925c44699ea30e72874c72fb")
    (hex "20347609607477aca8fbfbc5e6218455f3199669792ef8b466faa87bdc67798144c848dd03661eed5ac62461340cea96")
    (str "v3.public.eyJkYXRhIjoidGhpcyBpcyBhIHNpZ25lZCBtZXNzYWdlIiwiZXhwIjoiMjAyMi0wMS0wMVQwMDowMDowMCswMDowMCJ94SjWIbjmS7715GjLSnHnpJrC9Z-cnwK45dmvnVvCRQDCCKAXaKEopTajX0DKYx1Xqr6gcTdfqscLCAbiB4eOW9jlt-oNqdG8TjsYEi6aloBfTzF1DXff_45tFlnBukEX.eyJraWQiOiJkWWtJU3lseFFlZWNFY0hFTGZ6Rjg4VVpyd2JMb2xOaUNkcHpVSEd3OVVxbiJ9")
    (str "{""data"":""this is a signed message"",""exp"":""2022-01-01T00:00:00+00:00""}")
    (str "{""kid"":""dYkISylxQeecEcHELfzF88UZrwbLolNiCdpzUHGw9Uqn""}") (str "{""test-vector"":""3-S-3""}").

(** v3.json, 3-F-1 *)
Definition vec_3_F_1 : bool := Eval vm_compute in
  check_public_fail V3
    (hex "02fbcb7c69ee1c60579be7a334134878d9c5c5bf35d552dab63c0140397ed14cef637d7720925c44699ea30e72874c72fb")
    (str "v3.local.tthw-G1Da_BzYeMu_GEDp-IyQ7jzUCQHxCHRdDY6hQjKg6CuxECXfjOzlmNgNJ-WELjN61gMDnldG9OLkr3wpxuqdZksCzH9Ul16t3pXCLGPoHQ9_l51NOqVmMLbFVZOPhsmdhef9RxJwmqvzQ_Mo_JkYRlrNA.YXJiaXRyYXJ5LXN0cmluZy10aGF0LWlzbid0LWpzb24")
    (str "arbitrary-string-that-isn't-json") (str "{""test-vector"":""3-F-1""}").

Example VectorsPublic3_pass :
  forallb (fun b => b)
    [vec_3_S_1;
     vec_3_S_2;
     vec_3_S_3;
     vec_3_F_1] = true.
Proof. reflexivity. Qed.
