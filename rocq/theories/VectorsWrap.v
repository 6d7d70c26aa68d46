(** * VectorsWrap: test vectors of /repo/tests/test-vectors, run through the model (see [VectorCheck]).

    Each definition holds the result, computed by the virtual machine when this file is built, of one
    vector; the last example makes the build fail unless every result is [true].  This tests the model
    against the vectors of the repository; it is not part of any proof. *)
From Verif Require Import Bytes Version VectorCheck.

(** k3.local-wrap.pie.json *)
Definition vec_k3_local_wrap_pie_1 : bool := Eval vm_compute in
  check_pie V3 WLocal
    (hex "707172737475767778797a7b7c7d7e7f808182838485868788898a8b8c8d8e8f")
    (str "k3.local-wrap.pie.cLJLT84tUuU-ZLPqKWfhlDw4c2Fhk896z97sK2eM2-HYB3dk_NrHsSS340sJPsBsb7VeFpDBQMzzqRXr4Oylrpzmg-NZC9FVqgaWm1gtEikm-1yvlGRYwstUFLvUF30NrBE3GxYzI63DqJPqfmHSmQ")
    (hex "0000000000000000000000000000000000000000000000000000000000000000").

(** k3.local-wrap.pie.json *)
Definition vec_k3_local_wrap_pie_2 : bool := Eval vm_compute in
  check_pie V3 WLocal
    (hex "707172737475767778797a7b7c7d7e7f808182838485868788898a8b8c8d8e8f")
    (str "k3.local-wrap.pie.bkbHfW4bBJQ8jcPfLOYxUrg4SkKRHbsywYZwRvxUGFt1je2idZxlFr8sbkB6jTZ6hnrVlI25G2hqZtfdQyFIUcrRAiBrCWNPP1b3afdD9_YxsAXoKEA3X4AZhReuvHCzuPqXNCtrvJtpupGZn-PLFQ")
    (hex "ffffffffffffffffffffffffffffffffffffffffffffffffffffffffffffffff").

(** k3.local-wrap.pie.json *)
Definition vec_k3_local_wrap_pie_fail_1 : bool := Eval vm_compute in
  check_pie_fail V3 WLocal
    (hex "707172737475767778797a7b7c7d7e7f808182838485868788898a8b8c8d8e8f")
    (str "k3.local-wrap.pie.bkbHfW4bBJQ8jcPfLOYxUrg4SkKRHbsywYZwRvxUGFt1je2idZxlFr8sbkB6jTZ6hnrVlI25G2hqZtfdQyFIUcrRAiBrCWNPP1b3afdD9_YxsAXoKEA3X4AZhReuvHCzuPqXNCtrvJtpupHZo-RLFQ").

(** k3.local-wrap.pie.json *)
Definition vec_k3_local_wrap_pie_fail_2 : bool := Eval vm_compute in
  check_pie_fail V3 WLocal
    (hex "707172737475767778797a7b7c7d7e7f808182838485868788898a8b8c8d8e8f")
    (str "k4.local-wrap.pie.cy-Mu6zSfhu6q0_XdAM9p1zre_joUWjreSjHgisVNh-oHaNarN4_c7xuSyaHwqEDxF7lTbfNplBGU7wTeUyt__hZyj1J38NdNxVwuXamJY2QhRE-kWYA9_16xTsGwCQX").

(** k3.secret-wrap.pie.json *)
Definition vec_k3_secret_wrap_pie_1 : bool := Eval vm_compute in
  check_pie V3 WSecret
    (hex "707172737475767778797a7b7c7d7e7f808182838485868788898a8b8c8d8e8f")
    (str "k3.secret-wrap.pie.hLBw_r4wY1mTy9hu27ibzOnFfW37jc3SER1fu3x2sh0cyE31abqEFzocZRg-KgAGY7syAoMsBZZi7ZlJ4xFreLdCi7cQWpIH3ejUQ5WIRMRDK2lh4X9knh2Bj26XaBOSqtK62ACF-V2utRiI3QVeOOLhH-GWuD8RovVQvA1Vv5Q")
    (hex "000000000000000000000000000000000000000000000000000000000000000000000000000000000000000000000001").

(** k3.secret-wrap.pie.json *)
Definition vec_k3_secret_wrap_pie_2 : bool := Eval vm_compute in
  check_pie V3 WSecret
    (hex "ffffffffffffffffffffffffffffffffffffffffffffffffffffffffffffffff")
    (str "k3.secret-wrap.pie._9Npd2vzpHCHdGYDQ5QFMc6Nirlv3ubsPPb-xJnh6cLImLhpirH_PDQWRIkmb95m-fc1XpqwY2QQbUkkvb2-_tznGQBt0Yg2-0Lux2MNxObkxDIfxfz5lD_tToF58BIuTh9_Pny0dy27HmJPnUBgy7JP2Je-h3doq6i0V2Q5hRA")
    (hex "707172737475767778797a7b7c7d7e7f808182838485868788898a8b8c8d8e8f909192939495969798999a9b9c9d9e9f").

(** k3.secret-wrap.pie.json *)
Definition vec_k3_secret_wrap_pie_fail_1 : bool := Eval vm_compute in
  check_pie_fail V3 WSecret
    (hex "ffffffffffffffffffffffffffffffffffffffffffffffffffffffffffffffff")
    (str "k3.secret-wrap.pie._9Npd2vzpHCHdGYDQ5QFMc6Nirlv3ubsPPb-xJnh6cLImLhpirH_PDQWRIkmb95m-fc1XpqwY2QQbUkkvb2-_tznGQBt0Yg2-0Lux2MNxObkxDIfxfz5lD_tToF58BIuTh9_Pny0dy27HmJPnUBgy7JP2Je-h4doq6i0V2Q5hRB").

(** k3.secret-wrap.pie.json *)
Definition vec_k3_secret_wrap_pie_fail_2 : bool := Eval vm_compute in
  check_pie_fail V3 WSecret
    (hex "ffffffffffffffffffffffffffffffffffffffffffffffffffffffffffffffff")
    (str "k4.secret-wrap.pie.dYA31PP6a-d1Cyk3xt2Dz8kpGSlbpwkG5UyrLcgRspSvq1RUO1UQicQNE3-eXYUYGhXrG9zAVnR93tize-IPtiFEyO70U3bWEXd0uU7asDJQ19I3V2mf5OPIcKQl-TnY0XXtw5DPqY1yEFEbA9WTiDG0I3z6KTWA2z09NWm0OHQ").

(** k4.local-wrap.pie.json *)
Definition vec_k4_local_wrap_pie_1 : bool := Eval vm_compute in
  check_pie V4 WLocal
    (hex "707172737475767778797a7b7c7d7e7f808182838485868788898a8b8c8d8e8f")
    (str "k4.local-wrap.pie.y-PC8Zh6P1DoOBUdhRr7W8GWSgHtRKvE8PWWYA-qXy3fxJDmaRsxcZVQzuvXHZuBg5MqCgh_y5K0WbukJCrDX73Wdf631VBnE1DNHafbjnGNzFNWP59ba9ifsOAgE7Bw")
    (hex "0000000000000000000000000000000000000000000000000000000000000000").

(** k4.local-wrap.pie.json *)
Definition vec_k4_local_wrap_pie_2 : bool := Eval vm_compute in
  check_pie V4 WLocal
    (hex "707172737475767778797a7b7c7d7e7f808182838485868788898a8b8c8d8e8f")
    (str "k4.local-wrap.pie.cy-Mu6zSfhu6q0_XdAM9p1zre_joUWjreSjHgisVNh-oHaNarN4_c7xuSyaHwqEDxF7lTbfNplBGU7wTeUyt__hZyj1J38NdNxVwuXamJY2QhRE-kWYA9_16xTsGwCQX")
    (hex "ffffffffffffffffffffffffffffffffffffffffffffffffffffffffffffffff").

(** k4.local-wrap.pie.json *)
Definition vec_k4_local_wrap_pie_fail_1 : bool := Eval vm_compute in
  check_pie_fail V4 WLocal
    (hex "707172737475767778797a7b7c7d7e7f808182838485868788898a8b8c8d8e8f")
    (str "k4.local-wrap.pie.cy-Mu6zSfhu6q0_XdAM9p1zre_joUWjreSjHgisVNh-oHaNarN4_c7xuSyaHwqEDxF7lTbfNplBGU7wTeUyt__hZyj1J38NdNxVwuXamJY3QhRE-kWYA9_16xUtGwCQY").

(** k4.local-wrap.pie.json *)
Definition vec_k4_local_wrap_pie_fail_2 : bool := Eval vm_compute in
  check_pie_fail V4 WLocal
    (hex "707172737475767778797a7b7c7d7e7f808182838485868788898a8b8c8d8e8f")
    (str "k3.local-wrap.pie.bkbHfW4bBJQ8jcPfLOYxUrg4SkKRHbsywYZwRvxUGFt1je2idZxlFr8sbkB6jTZ6hnrVlI25G2hqZtfdQyFIUcrRAiBrCWNPP1b3afdD9_YxsAXoKEA3X4AZhReuvHCzuPqXNCtrvJtpupGZn-PLFQ").

(** k4.secret-wrap.pie.json *)
Definition vec_k4_secret_wrap_pie_1 : bool := Eval vm_compute in
  check_pie V4 WSecret
    (hex "707172737475767778797a7b7c7d7e7f808182838485868788898a8b8c8d8e8f")
    (str "k4.secret-wrap.pie.NC6xj8t0VuK-0KE7Fy6PAKtbQwEFRyQMe39A0ctrkaIcS1zjVgvYTN6cu1AZM7bU2bz-jzKclAWu3Bln6xhSOsUqcQPi6Kw_LtKXLRCeggiuPnaqWfIT4qacjXtXhFvOvDPye21fbWOPuoNM9VppuTzN0LzYDYgNYCPsbWt2n4c")
    (hex "00000000000000000000000000000000000000000000000000000000000000003b6a27bcceb6a42d62a3a8d02a6f0d73653215771de243a63ac048a18b59da29").

(** k4.secret-wrap.pie.json *)
Definition vec_k4_secret_wrap_pie_2 : bool := Eval vm_compute in
  check_pie V4 WSecret
    (hex "ffffffffffffffffffffffffffffffffffffffffffffffffffffffffffffffff")
    (str "k4.secret-wrap.pie.dYA31PP6a-d1Cyk3xt2Dz8kpGSlbpwkG5UyrLcgRspSvq1RUO1UQicQNE3-eXYUYGhXrG9zAVnR93tize-IPtiFEyO70U3bWEXd0uU7asDJQ19I3V2mf5OPIcKQl-TnY0XXtw5DPqY1yEFEbA9WTiDG0I3z6KTWA2z09NWm0OHQ")
    (hex "707172737475767778797a7b7c7d7e7f808182838485868788898a8b8c8d8e8f1ce56a48c82ff99162a14bc544612674e5d61fb9317e65d4055780fdbcb4dc35").

(** k4.secret-wrap.pie.json *)
Definition vec_k4_secret_wrap_pie_fail_1 : bool := Eval vm_compute in
  check_pie_fail V4 WSecret
    (hex "707172737475767778797a7b7c7d7e7f808182838485868788898a8b8c8d8e8f")
    (str "k4.secret-wrap.pie.dYA31PP6a-d1Cyk3xt2Dz8kpGSlbpwkG5UyrLcgRspSvq1RUO1UQicQNE3-eXYUYGhXrG9zAVnR93tize-IPtiFEyO70U3bWEXd0uU7asDJQ19I3V2mf6OPIcKQl-TnY0XXtw5DPqY1yEFEbA9WTiDG0I4z6KTWA2z08NWx0OIR").

(** k4.secret-wrap.pie.json *)
Definition vec_k4_secret_wrap_pie_fail_2 : bool := Eval vm_compute in
  check_pie_fail V4 WSecret
    (hex "707172737475767778797a7b7c7d7e7f808182838485868788898a8b8c8d8e8f")
    (str "k3.secret-wrap.pie._9Npd2vzpHCHdGYDQ5QFMc6Nirlv3ubsPPb-xJnh6cLImLhpirH_PDQWRIkmb95m-fc1XpqwY2QQbUkkvb2-_tznGQBt0Yg2-0Lux2MNxObkxDIfxfz5lD_tToF58BIuTh9_Pny0dy27HmJPnUBgy7JP2Je-h3doq6i0V2Q5hRA").

Example VectorsWrap_pass :
  forallb (fun b => b)
    [vec_k3_local_wrap_pie_1;
     vec_k3_local_wrap_pie_2;
     vec_k3_local_wrap_pie_fail_1;
     vec_k3_local_wrap_pie_fail_2;
     vec_k3_secret_wrap_pie_1;
     vec_k3_secret_wrap_pie_2;
     vec_k3_secret_wrap_pie_fail_1;
     vec_k3_secret_wrap_pie_fail_2;
     vec_k4_local_wrap_pie_1;
     vec_k4_local_wrap_pie_2;
     vec_k4_local_wrap_pie_fail_1;
     vec_k4_local_wrap_pie_fail_2;
     vec_k4_secret_wrap_pie_1;
     vec_k4_secret_wrap_pie_2;
     vec_k4_secret_wrap_pie_fail_1;
     vec_k4_secret_wrap_pie_fail_2] = true.
Proof. reflexivity. Qed.
