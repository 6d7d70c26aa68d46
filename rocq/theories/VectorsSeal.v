(** * VectorsSeal: test vectors of /repo/tests/test-vectors, run through the model (see [VectorCheck]).

    Each definition holds the result, computed by the virtual machine when this file is built, of one
    vector; the last example makes the build fail unless every result is [true].  This tests the model
    against the vectors of the repository; it is not part of any proof. *)
From Verif Require Import Bytes Version VectorCheck.

(** k3.seal.json *)
Definition vec_k3_seal_1 : bool := Eval vm_compute in
  check_seal V3
    (hex "2d2d2d2d2d424547494e2045432050524956415445204b45592d2d2d2d2d0a4d49476b4167454242444168556236574768414245314d546a307837452f3561636779617032336b6837685541566f4161764b79666859636d49336e3151374c0a4a7048784e62373932483667427759464b34454541434b685a414e694141543548376d54534f796a66494c4474537561765a66616c4933646f4d387052556c620a547a4e79594c714d3969566d616a7063304a5258764b75427447745969375966742b657146723642757a47726462345a31766b765263493530346d30714b69450a7a6a6869367534734e677a5732337272566b52596b62326f4533534a506b6f3d0a2d2d2d2d2d454e442045432050524956415445204b45592d2d2d2d2d")
    (str "k3.seal.NsI9NFzAouTSs7V5mejAeyBLYcoeNlbb9eY8C2KnkPTsARsPLen9KfMFfgqeI50FAnuRCdcb4HmXPaY3i-ZdBXwfdqSiB_65lmIHosVOJ7chmqqscnBkA7vc3mEAXxM05hSytjBYFxwlUnfFE3Sq3YHUZrOELF7PM87K6FFOMqc6")
    (hex "0000000000000000000000000000000000000000000000000000000000000000").

(** k3.seal.json *)
Definition vec_k3_seal_2 : bool := Eval vm_compute in
  check_seal V3
    (hex "2d2d2d2d2d424547494e2045432050524956415445204b45592d2d2d2d2d0a4d49476b4167454242444168556236574768414245314d546a307837452f3561636779617032336b6837685541566f4161764b79666859636d49336e3151374c0a4a7048784e62373932483667427759464b34454541434b685a414e694141543548376d54534f796a66494c4474537561765a66616c4933646f4d387052556c620a547a4e79594c714d3969566d616a7063304a5258764b75427447745969375966742b657146723642757a47726462345a31766b765263493530346d30714b69450a7a6a6869367534734e677a5732337272566b52596b62326f4533534a506b6f3d0a2d2d2d2d2d454e442045432050524956415445204b45592d2d2d2d2d")
    (str "k3.seal.qCFR9x-TwGcUQgprulNtvJqy7ZOipwmHQMOXXaJKetgYFsDm1aP3P9ljbCcDFlj0AqWxxuxaIFi59cCHDAysYdL5gzsVUTz-boo5G4V49FGiJu4kGj5pov1RKijsvaN4XQVhui57jUKWMy1fnjC5E6DrYlII2WWBKVMSbsnXuPGI")
    (hex "ffffffffffffffffffffffffffffffffffffffffffffffffffffffffffffffff").

(** k3.seal.json *)
Definition vec_k3_seal_fail_1 : bool := Eval vm_compute in
  check_seal_fail V3
    (hex "2d2d2d2d2d424547494e2045432050524956415445204b45592d2d2d2d2d0a4d49476b4167454242444168556236574768414245314d546a307837452f3561636779617032336b6837685541566f4161764b79666859636d49336e3151374c0a4a7048784e62373932483667427759464b34454541434b685a414e694141543548376d54534f796a66494c4474537561765a66616c4933646f4d387052556c620a547a4e79594c714d3969566d616a7063304a5258764b75427447745969375966742b657146723642757a47726462345a31766b765263493530346d30714b69450a7a6a6869367534734e677a5732337272566b52596b62326f4533534a506b6f3d0a2d2d2d2d2d454e442045432050524956415445204b45592d2d2d2d2d")
    (str "k3.seal.LpevSc3v4VYqlUjEr3OD4LSMaYspcU-VlqI8rpywnFwVKqT1sMJQB_K3GwyszVueA8QJ3KmBUr4ravEb8DsazPuXcWbrnQF4CJmUQSgaTI4YyCb35n-xkx8CDA7ig-m-lhhYKkp_r3Ybcm-s9BKPlPW2VRr682ukbrCTRXFlR9tS").

(** k3.seal.json *)
Definition vec_k3_seal_fail_2 : bool := Eval vm_compute in
  check_seal_fail V3
    (str "a770cf90f55d8a6dec51190eb640cb25ce31f7e5eb87a00ca9859022e6da9518a0fbc3dc2f99a538b40fb7616a83cf4276b6cf223fff5a2c2d3236235eb87dc7")
    (str "k4.seal.3-VOL4pX5b7eV3uMhYHfOhJNN77YyYtd7wYXrH9rRucKNmq0aO-6AWIFU4xOXUCBk0mzBZeWAPAKrvejqixqeRXm-MQXt8yFGHmM1RzpdJw80nabbyDIsNCpBwltU-uj").

(** k4.seal.json *)
Definition vec_k4_seal_1 : bool := Eval vm_compute in
  check_seal V4
    (str "407796f4bc4b8184e9fe0c54b336822d34823092ad873d87ba14c3efb9db8c1db7715bd661458d928654d3e832f53ff5c9480542e0e3d4c9b032c768c7ce6023")
    (str "k4.seal.OPFn-AEUsKUWtAUZrutVvd9YaZ4CmV4_lk6ii8N72l5gTnl8RlL_zRFqWTZZV9gSnPzARQ_QklrZ2Qs6cJGKOENNOnsDXL5haXcr-QbTXgoLVBvT4ruJ8MdjWXGRTVc9")
    (hex "0000000000000000000000000000000000000000000000000000000000000000").

(** k4.seal.json *)
Definition vec_k4_seal_2 : bool := Eval vm_compute in
  check_seal V4
    (str "a770cf90f55d8a6dec51190eb640cb25ce31f7e5eb87a00ca9859022e6da9518a0fbc3dc2f99a538b40fb7616a83cf4276b6cf223fff5a2c2d3236235eb87dc7")
    (str "k4.seal.3-VOL4pX5b7eV3uMhYHfOhJNN77YyYtd7wYXrH9rRucKNmq0aO-6AWIFU4xOXUCBk0mzBZeWAPAKrvejqixqeRXm-MQXt8yFGHmM1RzpdJw80nabbyDIsNCpBwltU-uj")
    (hex "ffffffffffffffffffffffffffffffffffffffffffffffffffffffffffffffff").

(** k4.seal.json *)
Definition vec_k4_seal_fail_1 : bool := Eval vm_compute in
  check_seal_fail V4
    (str "a770cf90f55d8a6dec51190eb640cb25ce31f7e5eb87a00ca9859022e6da9518a0fbc3dc2f99a538b40fb7616a83cf4276b6cf223fff5a2c2d3236235eb87dc7")
    (str "k4.seal.3-VOL5pX5b7eV3uMhYHfOhJNN77YyYtd7wYXrH9rRucKNmq0aO-6AWIFU4xOXUCBk0mzBZeWAPAKrvejqixqeRXm-MQXt8yFGHmM1RzpdJw80nabbyDItNCpBwltV-uj").

(** k4.seal.json *)
Definition vec_k4_seal_fail_2 : bool := Eval vm_compute in
  check_seal_fail V4
    (str "a770cf90f55d8a6dec51190eb640cb25ce31f7e5eb87a00ca9859022e6da9518a0fbc3dc2f99a538b40fb7616a83cf4276b6cf223fff5a2c2d3236235eb87dc7")
    (str "k3.seal.LpevSc3v4VYqlUjEr3OD4LSMaYspcU-VlqI8rpywnFwVKqT1sMJQB_K3GwyszVueA8QJ3KmBUr4ravEb8DsazPuXcWbrnQF4CJmUQSgaTI4YyCb35n-xkx8CDA7ig-m-lhhYKkp_r3Ybcm-s9BKPlPW2VRr791ukbrCSRXFkQ8sR").

Example VectorsSeal_pass :
  forallb (fun b => b)
    [vec_k3_seal_1;
     vec_k3_seal_2;
     vec_k3_seal_fail_1;
     vec_k3_seal_fail_2;
     vec_k4_seal_1;
     vec_k4_seal_2;
     vec_k4_seal_fail_1;
     vec_k4_seal_fail_2] = true.
Proof. reflexivity. Qed.
