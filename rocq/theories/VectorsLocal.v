(** * VectorsLocal: test vectors of /repo/tests/test-vectors, run through the model (see [VectorCheck]).

    Each definition holds the result, computed by the virtual machine when this file is built, of one
    vector; the last example makes the build fail unless every result is [true].  This tests the model
    against the vectors of the repository; it is not part of any proof. *)
From Verif Require Import Bytes Version VectorCheck.

(** v3.json, 3-E-1 *)
Definition vec_3_E_1 : bool := Eval vm_compute in
  check_local V3 (hex "707172737475767778797a7b7c7d7e7f808182838485868788898a8b8c8d8e8f") (hex "0000000000000000000000000000000000000000000000000000000000000000")
    (str "v3.local.AAAAAAAAAAAAAAAAAAAAAAAAAAAAAAAAAAAAAAAAAADbfcIURX_0pVZVU1mAESUzrKZAsRm2EsD6yBoZYn6cpVZNzSJOhSDN-sRaWjfLU-yn9OJH1J_B8GKtOQ9gSQlb8yk9Iza7teRdkiR89ZFyvPPsVjjFiepFUVcMa-LP18zV77f_crJrVXWa5PDNRkCSeHfBBeg")
    (str "{""data"":""this is a secret message"",""exp"":""2022-01-01T00:00:00+00:00""}")
    (str "") (str "").

(** v3.json, 3-E-2 *)
Definition vec_3_E_2 : bool := Eval vm_compute in
  check_local V3 (hex "707172737475767778797a7b7c7d7e7f808182838485868788898a8b8c8d8e8f") (hex "0000000000000000000000000000000000000000000000000000000000000000")
    (str "v3.local.AAAAAAAAAAAAAAAAAAAAAAAAAAAAAAAAAAAAAAAAAADbfcIURX_0pVZVU1mAESUzrKZAqhWxBMDgyBoZYn6cpVZNzSJOhSDN-sRaWjfLU-yn9OJH1J_B8GKtOQ9gSQlb8yk9IzZfaZpReVpHlDSwfuygx1riVXYVs-UjcrG_apl9oz3jCVmmJbRuKn5ZfD8mHz2db0A")
    (str "{""data"":""this is a hidden message"",""exp"":""2022-01-01T00:00:00+00:00""}")
    (str "") (str "").

(** v3.json, 3-E-3 *)
Definition vec_3_E_3 : bool := Eval vm_compute in
  check_local V3 (hex "707172737475767778797a7b7c7d7e7f808182838485868788898a8b8c8d8e8f") (hex "26f7553354482a1d91d4784627854b8da6b8042a7966523c2b404e8dbbe7f7f2")
    (str "v3.local.JvdVM1RIKh2R1HhGJ4VLjaa4BCp5ZlI8K0BOjbvn9_LwY78vQnDait-Q-sjhF88dG2B0ROIIykcrGHn8wzPbTrqObHhyoKpjy3cwZQzLdiwRsdEK5SDvl02_HjWKJW2oqGMOQJlxnt5xyhQjFJomwnt7WW_7r2VT0G704ifult011-TgLCyQ2X8imQhniG_hAQ4BydM")
    (str "{""data"":""this is a secret message"",""exp"":""2022-01-01T00:00:00+00:00""}")
    (str "") (str "").

(** v3.json, 3-E-4 *)
Definition vec_3_E_4 : bool := Eval vm_compute in
  check_local V3 (hex "707172737475767778797a7b7c7d7e7f808182838485868788898a8b8c8d8e8f") (hex "26f7553354482a1d91d4784627854b8da6b8042a7966523c2b404e8dbbe7f7f2")
    (str "v3.local.JvdVM1RIKh2R1HhGJ4VLjaa4BCp5ZlI8K0BOjbvn9_LwY78vQnDait-Q-sjhF88dG2B0X-4P3EcxGHn8wzPbTrqObHhyoKpjy3cwZQzLdiwRsdEK5SDvl02_HjWKJW2oqGMOQJlBZa_gOpVj4gv0M9lV6Pwjp8JS_MmaZaTA1LLTULXybOBZ2S4xMbYqYmDRhh3IgEk")
    (str "{""data"":""this is a hidden message"",""exp"":""2022-01-01T00:00:00+00:00""}")
    (str "") (str "").

(** v3.json, 3-E-5 *)
Definition vec_3_E_5 : bool := Eval vm_compute in
  check_local V3 (hex "707172737475767778797a7b7c7d7e7f808182838485868788898a8b8c8d8e8f") (hex "26f7553354482a1d91d4784627854b8da6b8042a7966523c2b404e8dbbe7f7f2")
    (str "v3.local.JvdVM1RIKh2R1HhGJ4VLjaa4BCp5ZlI8K0BOjbvn9_LwY78vQnDait-Q-sjhF88dG2B0ROIIykcrGHn8wzPbTrqObHhyoKpjy3cwZQzLdiwRsdEK5SDvl02_HjWKJW2oqGMOQJlkYSIbXOgVuIQL65UMdW9WcjOpmqvjqD40NNzed-XPqn1T3w-bJvitYpUJL_rmihc.eyJraWQiOiJVYmtLOFk2aXY0R1poRnA2VHgzSVdMV0xmTlhTRXZKY2RUM3pkUjY1WVp4byJ9")
    (str "{""data"":""this is a secret message"",""exp"":""2022-01-01T00:00:00+00:00""}")
    (str "{""kid"":""UbkK8Y6iv4GZhFp6Tx3IWLWLfNXSEvJcdT3zdR65YZxo""}") (str "").

(** v3.json, 3-E-6 *)
Definition vec_3_E_6 : bool := Eval vm_compute in
  check_local V3 (hex "707172737475767778797a7b7c7d7e7f808182838485868788898a8b8c8d8e8f") (hex "26f7553354482a1d91d4784627854b8da6b8042a7966523c2b404e8dbbe7f7f2")
    (str "v3.local.JvdVM1RIKh2R1HhGJ4VLjaa4BCp5ZlI8K0BOjbvn9_LwY78vQnDait-Q-sjhF88dG2B0X-4P3EcxGHn8wzPbTrqObHhyoKpjy3cwZQzLdiwRsdEK5SDvl02_HjWKJW2oqGMOQJmSeEMphEWHiwtDKJftg41O1F8Hat-8kQ82ZIAMFqkx9q5VkWlxZke9ZzMBbb3Znfo.eyJraWQiOiJVYmtLOFk2aXY0R1poRnA2VHgzSVdMV0xmTlhTRXZKY2RUM3pkUjY1WVp4byJ9")
    (str "{""data"":""this is a hidden message"",""exp"":""2022-01-01T00:00:00+00:00""}")
    (str "{""kid"":""UbkK8Y6iv4GZhFp6Tx3IWLWLfNXSEvJcdT3zdR65YZxo""}") (str "").

(** v3.json, 3-E-7 *)
Definition vec_3_E_7 : bool := Eval vm_compute in
  check_local V3 (hex "707172737475767778797a7b7c7d7e7f808182838485868788898a8b8c8d8e8f") (hex "26f7553354482a1d91d4784627854b8da6b8042a7966523c2b404e8dbbe7f7f2")
    (str "v3.local.JvdVM1RIKh2R1HhGJ4VLjaa4BCp5ZlI8K0BOjbvn9_LwY78vQnDait-Q-sjhF88dG2B0ROIIykcrGHn8wzPbTrqObHhyoKpjy3cwZQzLdiwRsdEK5SDvl02_HjWKJW2oqGMOQJkzWACWAIoVa0bz7EWSBoTEnS8MvGBYHHo6t6mJunPrFR9JKXFCc0obwz5N-pxFLOc.eyJraWQiOiJVYmtLOFk2aXY0R1poRnA2VHgzSVdMV0xmTlhTRXZKY2RUM3pkUjY1WVp4byJ9")
    (str "{""data"":""this is a secret message"",""exp"":""2022-01-01T00:00:00+00:00""}")
    (str "{""kid"":""UbkK8Y6iv4GZhFp6Tx3IWLWLfNXSEvJcdT3zdR65YZxo""}") (str "{""test-vector"":""3-E-7""}").

(** v3.json, 3-E-8 *)
Definition vec_3_E_8 : bool := Eval vm_compute in
  check_local V3 (hex "707172737475767778797a7b7c7d7e7f808182838485868788898a8b8c8d8e8f") (hex "26f7553354482a1d91d4784627854b8da6b8042a7966523c2b404e8dbbe7f7f2")
    (str "v3.local.JvdVM1RIKh2R1HhGJ4VLjaa4BCp5ZlI8K0BOjbvn9_LwY78vQnDait-Q-sjhF88dG2B0X-4P3EcxGHn8wzPbTrqObHhyoKpjy3cwZQzLdiwRsdEK5SDvl02_HjWKJW2oqGMOQJmZHSSKYR6AnPYJV6gpHtx6dLakIG_AOPhu8vKexNyrv5_1qoom6_NaPGecoiz6fR8.eyJraWQiOiJVYmtLOFk2aXY0R1poRnA2VHgzSVdMV0xmTlhTRXZKY2RUM3pkUjY1WVp4byJ9")
    (str "{""data"":""this is a hidden message"",""exp"":""2022-01-01T00:00:00+00:00""}")
    (str "{""kid"":""UbkK8Y6iv4GZhFp6Tx3IWLWLfNXSEvJcdT3zdR65YZxo""}") (str "{""test-vector"":""3-E-8""}").

(** v3.json, 3-E-9 *)
Definition vec_3_E_9 : bool := Eval vm_compute in
  check_local V3 (hex "707172737475767778797a7b7c7d7e7f808182838485868788898a8b8c8d8e8f") (hex "26f7553354482a1d91d4784627854b8da6b8042a7966523c2b404e8dbbe7f7f2")
    (str "v3.local.JvdVM1RIKh2R1HhGJ4VLjaa4BCp5ZlI8K0BOjbvn9_LwY78vQnDait-Q-sjhF88dG2B0X-4P3EcxGHn8wzPbTrqObHhyoKpjy3cwZQzLdiwRsdEK5SDvl02_HjWKJW2oqGMOQJlk1nli0_wijTH_vCuRwckEDc82QWK8-lG2fT9wQF271sgbVRVPjm0LwMQZkvvamqU.YXJiaXRyYXJ5LXN0cmluZy10aGF0LWlzbid0LWpzb24")
    (str "{""data"":""this is a hidden message"",""exp"":""2022-01-01T00:00:00+00:00""}")
    (str "arbitrary-string-that-isn't-json") (str "{""test-vector"":""3-E-9""}").

(** v3.json, 3-F-2 *)
Definition vec_3_F_2 : bool := Eval vm_compute in
  check_local_fail V3 (hex "707172737475767778797a7b7c7d7e7f808182838485868788898a8b8c8d8e8f")
    (str "v3.public.eyJpbnZhbGlkIjoidGhpcyBzaG91bGQgbmV2ZXIgZGVjb2RlIn1hbzIBD_EU54TYDTvsN9bbCU1QPo7FDeIhijkkcB9BrVH73XyM3Wwvu1pJaGCOEc0R5DVe9hb1ka1cYBd0goqVHt0NQ2NhPtILz4W36eCCqyU4uV6xDMeLI8ni6r3GnaY.eyJraWQiOiJ6VmhNaVBCUDlmUmYyc25FY1Q3Z0ZUaW9lQTlDT2NOeTlEZmdMMVc2MGhhTiJ9")
    (str "{""kid"":""zVhMiPBP9fRf2snEcT7gFTioeA9COcNy9DfgL1W60haN""}") (str "{""test-vector"":""3-F-2""}").

(** v3.json, 3-F-3 *)
Definition vec_3_F_3 : bool := Eval vm_compute in
  check_local_fail V3 (hex "707172737475767778797a7b7c7d7e7f808182838485868788898a8b8c8d8e8f")
    (str "v4.local.1JgN1UG8TFAYS49qsx8rxlwh-9E4ONUm3slJXYi5EibmzxpF0Q-du6gakjuyKCBX8TvnSLOKqCPu8Yh3WSa5yJWigPy33z9XZTJF2HQ9wlLDPtVn_Mu1pPxkTU50ZaBKblJBufRA.YXJiaXRyYXJ5LXN0cmluZy10aGF0LWlzbid0LWpzb24")
    (str "arbitrary-string-that-isn't-json") (str "{""test-vector"":""3-F-3""}").

(** v3.json, 3-F-4 *)
Definition vec_3_F_4 : bool := Eval vm_compute in
  check_local_fail V3 (hex "707172737475767778797a7b7c7d7e7f808182838485868788898a8b8c8d8e8f")
    (str "v3.local.AAAAAAAAAAAAAAAAAAAAAAAAAAAAAAAAAAAAAAAAAADbfcIURX_0pVZVU1mAESUzrKZAsRm2EsD6yBoZYn6cpVZNzSJOhSDN-sRaWjfLU-yn9OJH1J_B8GKtOQ9gSQlb8yk9Iza7teRdkiR89ZFyvPPsVjjFiepFUVcMa-LP18zV77f_crJrVXWa5PDNRkCSeHfBBeh")
    (str "") (str "").

(** v3.json, 3-F-5 *)
Definition vec_3_F_5 : bool := Eval vm_compute in
  check_local_fail V3 (hex "707172737475767778797a7b7c7d7e7f808182838485868788898a8b8c8d8e8f")
    (str "v3.local.JvdVM1RIKh2R1HhGJ4VLjaa4BCp5ZlI8K0BOjbvn9_LwY78vQnDait-Q-sjhF88dG2B0ROIIykcrGHn8wzPbTrqObHhyoKpjy3cwZQzLdiwRsdEK5SDvl02_HjWKJW2oqGMOQJlkYSIbXOgVuIQL65UMdW9WcjOpmqvjqD40NNzed-XPqn1T3w-bJvitYpUJL_rmihc=.eyJraWQiOiJVYmtLOFk2aXY0R1poRnA2VHgzSVdMV0xmTlhTRXZKY2RUM3pkUjY1WVp4byJ9")
    (str "{""kid"":""UbkK8Y6iv4GZhFp6Tx3IWLWLfNXSEvJcdT3zdR65YZxo""}") (str "").

(** v4.json, 4-E-1 *)
Definition vec_4_E_1 : bool := Eval vm_compute in
  check_local V4 (hex "707172737475767778797a7b7c7d7e7f808182838485868788898a8b8c8d8e8f") (hex "0000000000000000000000000000000000000000000000000000000000000000")
    (str "v4.local.AAAAAAAAAAAAAAAAAAAAAAAAAAAAAAAAAAAAAAAAAAAQAr68PS4AXe7If_ZgesdkUMvSwscFlAl1pk5HC0e8kApeaqMfGo_7OpBnwJOAbY9V7WU6abu74MmcUE8YWAiaArVI8XJ5hOb_4v9RmDkneN0S92dx0OW4pgy7omxgf3S8c3LlQg")
    (str "{""data"":""this is a secret message"",""exp"":""2022-01-01T00:00:00+00:00""}")
    (str "") (str "").

(** v4.json, 4-E-2 *)
Definition vec_4_E_2 : bool := Eval vm_compute in
  check_local V4 (hex "707172737475767778797a7b7c7d7e7f808182838485868788898a8b8c8d8e8f") (hex "0000000000000000000000000000000000000000000000000000000000000000")
    (str "v4.local.AAAAAAAAAAAAAAAAAAAAAAAAAAAAAAAAAAAAAAAAAAAQAr68PS4AXe7If_ZgesdkUMvS2csCgglvpk5HC0e8kApeaqMfGo_7OpBnwJOAbY9V7WU6abu74MmcUE8YWAiaArVI8XIemu9chy3WVKvRBfg6t8wwYHK0ArLxxfZP73W_vfwt5A")
    (str "{""data"":""this is a hidden message"",""exp"":""2022-01-01T00:00:00+00:00""}")
    (str "") (str "").

(** v4.json, 4-E-3 *)
Definition vec_4_E_3 : bool := Eval vm_compute in
  check_local V4 (hex "707172737475767778797a7b7c7d7e7f808182838485868788898a8b8c8d8e8f") (hex "df654812bac492663825520ba2f6e67cf5ca5bdc13d4e7507a98cc4c2fcc3ad8")
    (str "v4.local.32VIErrEkmY4JVILovbmfPXKW9wT1OdQepjMTC_MOtjA4kiqw7_tcaOM5GNEcnTxl60WkwMsYXw6FSNb_UdJPXjpzm0KW9ojM5f4O2mRvE2IcweP-PRdoHjd5-RHCiExR1IK6t6-tyebyWG6Ov7kKvBdkrrAJ837lKP3iDag2hzUPHuMKA")
    (str "{""data"":""this is a secret message"",""exp"":""2022-01-01T00:00:00+00:00""}")
    (str "") (str "").

(** v4.json, 4-E-4 *)
Definition vec_4_E_4 : bool := Eval vm_compute in
  check_local V4 (hex "707172737475767778797a7b7c7d7e7f808182838485868788898a8b8c8d8e8f") (hex "df654812bac492663825520ba2f6e67cf5ca5bdc13d4e7507a98cc4c2fcc3ad8")
    (str "v4.local.32VIErrEkmY4JVILovbmfPXKW9wT1OdQepjMTC_MOtjA4kiqw7_tcaOM5GNEcnTxl60WiA8rd3wgFSNb_UdJPXjpzm0KW9ojM5f4O2mRvE2IcweP-PRdoHjd5-RHCiExR1IK6t4gt6TiLm55vIH8c_lGxxZpE3AWlH4WTR0v45nsWoU3gQ")
    (str "{""data"":""this is a hidden message"",""exp"":""2022-01-01T00:00:00+00:00""}")
    (str "") (str "").

(** v4.json, 4-E-5 *)
Definition vec_4_E_5 : bool := Eval vm_compute in
  check_local V4 (hex "707172737475767778797a7b7c7d7e7f808182838485868788898a8b8c8d8e8f") (hex "df654812bac492663825520ba2f6e67cf5ca5bdc13d4e7507a98cc4c2fcc3ad8")
    (str "v4.local.32VIErrEkmY4JVILovbmfPXKW9wT1OdQepjMTC_MOtjA4kiqw7_tcaOM5GNEcnTxl60WkwMsYXw6FSNb_UdJPXjpzm0KW9ojM5f4O2mRvE2IcweP-PRdoHjd5-RHCiExR1IK6t4x-RMNXtQNbz7FvFZ_G-lFpk5RG3EOrwDL6CgDqcerSQ.eyJraWQiOiJ6VmhNaVBCUDlmUmYyc25FY1Q3Z0ZUaW9lQTlDT2NOeTlEZmdMMVc2MGhhTiJ9")
    (str "{""data"":""this is a secret message"",""exp"":""2022-01-01T00:00:00+00:00""}")
    (str "{""kid"":""zVhMiPBP9fRf2snEcT7gFTioeA9COcNy9DfgL1W60haN""}") (str "").

(** v4.json, 4-E-6 *)
Definition vec_4_E_6 : bool := Eval vm_compute in
  check_local V4 (hex "707172737475767778797a7b7c7d7e7f808182838485868788898a8b8c8d8e8f") (hex "df654812bac492663825520ba2f6e67cf5ca5bdc13d4e7507a98cc4c2fcc3ad8")
    (str "v4.local.32VIErrEkmY4JVILovbmfPXKW9wT1OdQepjMTC_MOtjA4kiqw7_tcaOM5GNEcnTxl60WiA8rd3wgFSNb_UdJPXjpzm0KW9ojM5f4O2mRvE2IcweP-PRdoHjd5-RHCiExR1IK6t6pWSA5HX2wjb3P-xLQg5K5feUCX4P2fpVK3ZLWFbMSxQ.eyJraWQiOiJ6VmhNaVBCUDlmUmYyc25FY1Q3Z0ZUaW9lQTlDT2NOeTlEZmdMMVc2MGhhTiJ9")
    (str "{""data"":""this is a hidden message"",""exp"":""2022-01-01T00:00:00+00:00""}")
    (str "{""kid"":""zVhMiPBP9fRf2snEcT7gFTioeA9COcNy9DfgL1W60haN""}") (str "").

(** v4.json, 4-E-7 *)
Definition vec_4_E_7 : bool := Eval vm_compute in
  check_local V4 (hex "707172737475767778797a7b7c7d7e7f808182838485868788898a8b8c8d8e8f") (hex "df654812bac492663825520ba2f6e67cf5ca5bdc13d4e7507a98cc4c2fcc3ad8")
    (str "v4.local.32VIErrEkmY4JVILovbmfPXKW9wT1OdQepjMTC_MOtjA4kiqw7_tcaOM5GNEcnTxl60WkwMsYXw6FSNb_UdJPXjpzm0KW9ojM5f4O2mRvE2IcweP-PRdoHjd5-RHCiExR1IK6t40KCCWLA7GYL9KFHzKlwY9_RnIfRrMQpueydLEAZGGcA.eyJraWQiOiJ6VmhNaVBCUDlmUmYyc25FY1Q3Z0ZUaW9lQTlDT2NOeTlEZmdMMVc2MGhhTiJ9")
    (str "{""data"":""this is a secret message"",""exp"":""2022-01-01T00:00:00+00:00""}")
    (str "{""kid"":""zVhMiPBP9fRf2snEcT7gFTioeA9COcNy9DfgL1W60haN""}") (str "{""test-vector"":""4-E-7""}").

(** v4.json, 4-E-8 *)
Definition vec_4_E_8 : bool := Eval vm_compute in
  check_local V4 (hex "707172737475767778797a7b7c7d7e7f808182838485868788898a8b8c8d8e8f") (hex "df654812bac492663825520ba2f6e67cf5ca5bdc13d4e7507a98cc4c2fcc3ad8")
    (str "v4.local.32VIErrEkmY4JVILovbmfPXKW9wT1OdQepjMTC_MOtjA4kiqw7_tcaOM5GNEcnTxl60WiA8rd3wgFSNb_UdJPXjpzm0KW9ojM5f4O2mRvE2IcweP-PRdoHjd5-RHCiExR1IK6t5uvqQbMGlLLNYBc7A6_x7oqnpUK5WLvj24eE4DVPDZjw.eyJraWQiOiJ6VmhNaVBCUDlmUmYyc25FY1Q3Z0ZUaW9lQTlDT2NOeTlEZmdMMVc2MGhhTiJ9")
    (str "{""data"":""this is a hidden message"",""exp"":""2022-01-01T00:00:00+00:00""}")
    (str "{""kid"":""zVhMiPBP9fRf2snEcT7gFTioeA9COcNy9DfgL1W60haN""}") (str "{""test-vector"":""4-E-8""}").

(** v4.json, 4-E-9 *)
Definition vec_4_E_9 : bool := Eval vm_compute in
  check_local V4 (hex "707172737475767778797a7b7c7d7e7f808182838485868788898a8b8c8d8e8f") (hex "df654812bac492663825520ba2f6e67cf5ca5bdc13d4e7507a98cc4c2fcc3ad8")
    (str "v4.local.32VIErrEkmY4JVILovbmfPXKW9wT1OdQepjMTC_MOtjA4kiqw7_tcaOM5GNEcnTxl60WiA8rd3wgFSNb_UdJPXjpzm0KW9ojM5f4O2mRvE2IcweP-PRdoHjd5-RHCiExR1IK6t6tybdlmnMwcDMw0YxA_gFSE_IUWl78aMtOepFYSWYfQA.YXJiaXRyYXJ5LXN0cmluZy10aGF0LWlzbid0LWpzb24")
    (str "{""data"":""this is a hidden message"",""exp"":""2022-01-01T00:00:00+00:00""}")
    (str "arbitrary-string-that-isn't-json") (str "{""test-vector"":""4-E-9""}").

(** v4.json, 4-F-2 *)
Definition vec_4_F_2 : bool := Eval vm_compute in
  check_local_fail V4 (hex "707172737475767778797a7b7c7d7e7f808182838485868788898a8b8c8d8e8f")
    (str "v4.public.eyJpbnZhbGlkIjoidGhpcyBzaG91bGQgbmV2ZXIgZGVjb2RlIn22Sp4gjCaUw0c7EH84ZSm_jN_Qr41MrgLNu5LIBCzUr1pn3Z-Wukg9h3ceplWigpoHaTLcwxj0NsI1vjTh67YB.eyJraWQiOiJ6VmhNaVBCUDlmUmYyc25FY1Q3Z0ZUaW9lQTlDT2NOeTlEZmdMMVc2MGhhTiJ9")
    (str "{""kid"":""zVhMiPBP9fRf2snEcT7gFTioeA9COcNy9DfgL1W60haN""}") (str "{""test-vector"":""4-F-2""}").

(** v4.json, 4-F-3 *)
Definition vec_4_F_3 : bool := Eval vm_compute in
  check_local_fail V4 (hex "707172737475767778797a7b7c7d7e7f808182838485868788898a8b8c8d8e8f")
    (str "v3.local.23e_2PiqpQBPvRFKzB0zHhjmxK3sKo2grFZRRLM-U7L0a8uHxuF9RlVz3Ic6WmdUUWTxCaYycwWV1yM8gKbZB2JhygDMKvHQ7eBf8GtF0r3K0Q_gF1PXOxcOgztak1eD1dPe9rLVMSgR0nHJXeIGYVuVrVoLWQ.YXJiaXRyYXJ5LXN0cmluZy10aGF0LWlzbid0LWpzb24")
    (str "arbitrary-string-that-isn't-json") (str "{""test-vector"":""4-F-3""}").

(** v4.json, 4-F-4 *)
Definition vec_4_F_4 : bool := Eval vm_compute in
  check_local_fail V4 (hex "707172737475767778797a7b7c7d7e7f808182838485868788898a8b8c8d8e8f")
    (str "v4.local.AAAAAAAAAAAAAAAAAAAAAAAAAAAAAAAAAAAAAAAAAAAQAr68PS4AXe7If_ZgesdkUMvSwscFlAl1pk5HC0e8kApeaqMfGo_7OpBnwJOAbY9V7WU6abu74MmcUE8YWAiaArVI8XJ5hOb_4v9RmDkneN0S92dx0OW4pgy7omxgf3S8c3LlQh")
    (str "") (str "").

(** v4.json, 4-F-5 *)
Definition vec_4_F_5 : bool := Eval vm_compute in
  check_local_fail V4 (hex "707172737475767778797a7b7c7d7e7f808182838485868788898a8b8c8d8e8f")
    (str "v4.local.32VIErrEkmY4JVILovbmfPXKW9wT1OdQepjMTC_MOtjA4kiqw7_tcaOM5GNEcnTxl60WkwMsYXw6FSNb_UdJPXjpzm0KW9ojM5f4O2mRvE2IcweP-PRdoHjd5-RHCiExR1IK6t4x-RMNXtQNbz7FvFZ_G-lFpk5RG3EOrwDL6CgDqcerSQ==.eyJraWQiOiJ6VmhNaVBCUDlmUmYyc25FY1Q3Z0ZUaW9lQTlDT2NOeTlEZmdMMVc2MGhhTiJ9")
    (str "{""kid"":""zVhMiPBP9fRf2snEcT7gFTioeA9COcNy9DfgL1W60haN""}") (str "").

Example VectorsLocal_pass :
  forallb (fun b => b)
    [vec_3_E_1;
     vec_3_E_2;
     vec_3_E_3;
     vec_3_E_4;
     vec_3_E_5;
     vec_3_E_6;
     vec_3_E_7;
     vec_3_E_8;
     vec_3_E_9;
     vec_3_F_2;
     vec_3_F_3;
     vec_3_F_4;
     vec_3_F_5;
     vec_4_E_1;
     vec_4_E_2;
     vec_4_E_3;
     vec_4_E_4;
     vec_4_E_5;
     vec_4_E_6;
     vec_4_E_7;
     vec_4_E_8;
     vec_4_E_9;
     vec_4_F_2;
     vec_4_F_3;
     vec_4_F_4;
     vec_4_F_5] = true.
Proof. reflexivity. Qed.
