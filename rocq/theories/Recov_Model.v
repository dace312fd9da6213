(** * Model of the recovery polynomials (data/old/recovData.py)

    Each function is a sum of terms [c * f[k] * x**p / dx**p]; the tables list them in
    the order of the source.  The method that used the functions (data/dg.py 573-637) is
    commented out in the source. *)
From Coq Require Import List ZArith QArith Reals.
From Verif Require Import Prelude.
Import ListNotations.
Open Scope list_scope.

(** The expansion in the left, own or right cell.
    The arguments fL, f and fR, data/old/recovData.py 5 and 24. *)
Inductive cell := fL | f0 | fR.
(** Equality of these, no counterpart in data/old/recovData.py 1-56. *)
Definition cell_eqb (a b : cell) : bool := match a, b with fL, fL | f0, f0 | fR, fR => true | _, _ => false end.

(** One term of a sum, for instance data/old/recovData.py 7. *)
Record term := T { t_c : Q; t_cell : cell; t_k : nat; t_p : nat }.

(** Value of a function; [F w k] is the [k]-th entry of the array of cell [w].
    The shape of data/old/recovData.py 5-21. *)
Definition recov (tab : list term) (F : cell -> nat -> R) (x dx : R) : R :=
  fold_right (fun t s => (Q2R (t_c t) * F (t_cell t) (t_k t) * x ^ t_p t / dx ^ t_p t + s)%R) 0%R tab.

(** Lines 5-21. *)
Definition p1e : list term := [
  T (3061862178478972 # 1000000000000000) fR 1 3;
  T (3061862178478972 # 1000000000000000) fL 1 3;
  T (-1767766952966368 # 1000000000000000) fR 0 3;
  T (1767766952966368 # 1000000000000000) fL 0 3;
  T (1224744871391589 # 1000000000000000) fR 1 2;
  T (-1224744871391589 # 1000000000000000) fL 1 2;
  T (-1530931089239486 # 1000000000000000) fR 1 1;
  T (-1530931089239486 # 1000000000000000) fL 1 1;
  T (1590990257669731 # 1000000000000000) fR 0 1;
  T (-1590990257669731 # 1000000000000000) fL 0 1;
  T (-408248290463863 # 1000000000000000) fR 1 0;
  T (408248290463863 # 1000000000000000) fL 1 0;
  T (3535533905932737 # 10000000000000000) fR 0 0;
  T (3535533905932737 # 10000000000000000) fL 0 0].

(** Lines 24-56. *)
Definition p1c1 : list term := [
  T (2357633877428808 # 100000000000000) fR 1 5;
  T (2357633877428808 # 100000000000000) fL 1 5;
  T (8144553394754065 # 100000000000000) f0 1 5;
  T (-1856155300614687 # 100000000000000) fR 0 5;
  T (1856155300614687 # 100000000000000) fL 0 5;
  T (2296396633859228 # 1000000000000000) fR 1 4;
  T (-2296396633859228 # 1000000000000000) fL 1 4;
  T (-1325825214724776 # 1000000000000000) fR 0 4;
  T (-1325825214724776 # 1000000000000000) fL 0 4;
  T (2651650429449552 # 1000000000000000) f0 0 4;
  T (-125026038954558 # 10000000000000) fR 1 3;
  T (-125026038954558 # 10000000000000) fL 1 3;
  T (-4541762231410475 # 100000000000000) f0 1 3;
  T (1016465997955662 # 100000000000000) fR 0 3;
  T (-1016465997955662 # 100000000000000) fL 0 3;
  T (-1913663861549357 # 1000000000000000) fR 1 2;
  T (1913663861549357 # 1000000000000000) fL 1 2;
  T (1458407736197253 # 1000000000000000) fR 0 2;
  T (1458407736197253 # 1000000000000000) fL 0 2;
  T (-2916815472394507 # 1000000000000000) f0 0 2;
  T (1243881510007081 # 1000000000000000) fR 1 1;
  T (1243881510007081 # 1000000000000000) fL 1 1;
  T (708055628773262 # 100000000000000) f0 1 1;
  T (-1027514541411701 # 1000000000000000) fR 0 1;
  T (1027514541411701 # 1000000000000000) fL 0 1;
  T (130767030539206 # 1000000000000000) fR 1 0;
  T (-130767030539206 # 1000000000000000) fL 1 0;
  T (-104961162832378 # 1000000000000000) fR 0 0;
  T (-104961162832378 # 1000000000000000) fL 0 0;
  T (917029106851303 # 1000000000000000) f0 0 0].

(** Lines 59-81. *)
Definition p1c0 : list term := [
  T (-4082482904638631 # 1000000000000000) fR 1 3;
  T (-4082482904638631 # 1000000000000000) fL 1 3;
  T (-1632993161855453 # 100000000000000) f0 1 3;
  T (3535533905932737 # 1000000000000000) fR 0 3;
  T (-3535533905932737 # 1000000000000000) fL 0 3;
  T (-1224744871391589 # 1000000000000000) fR 1 2;
  T (1224744871391589 # 1000000000000000) fL 1 2;
  T (1060660171779821 # 1000000000000000) fR 0 2;
  T (1060660171779821 # 1000000000000000) fL 0 2;
  T (-2121320343559642 # 1000000000000000) f0 0 2;
  T (6123724356957944 # 10000000000000000) fR 1 1;
  T (6123724356957944 # 10000000000000000) fL 1 1;
  T (4898979485566357 # 1000000000000000) f0 1 1;
  T (-5303300858899105 # 10000000000000000) fR 0 1;
  T (5303300858899105 # 10000000000000000) fL 0 1;
  T (1020620726159657 # 10000000000000000) fR 1 0;
  T (-1020620726159657 # 10000000000000000) fL 1 0;
  T (-883883476483184 # 10000000000000000) fR 0 0;
  T (-883883476483184 # 10000000000000000) fL 0 0;
  T (883883476483184 # 1000000000000000) f0 0 0].

(** Lines 88-122. *)
Definition p2e : list term := [
  T (1328156617270719 # 100000000000000) fR 2 5;
  T (-1328156617270719 # 100000000000000) fL 2 5;
  T (-1285982114961168 # 100000000000000) fR 1 5;
  T (-1285982114961168 # 100000000000000) fL 1 5;
  T (7424621202458747 # 1000000000000000) fR 0 5;
  T (-7424621202458747 # 1000000000000000) fL 0 5;
  T (5188111786213744 # 1000000000000000) fR 2 4;
  T (5188111786213744 # 1000000000000000) fL 2 4;
  T (-1339564703084549 # 1000000000000000) fR 1 4;
  T (1339564703084549 # 1000000000000000) fL 1 4;
  T (-1264911064067352 # 100000000000000) fR 2 3;
  T (1264911064067352 # 100000000000000) fL 2 3;
  T (1530931089239486 # 100000000000000) fR 1 3;
  T (1530931089239486 # 100000000000000) fL 1 3;
  T (-8838834764831843 # 1000000000000000) fR 0 3;
  T (8838834764831843 # 1000000000000000) fL 0 3;
  T (-4150489428970996 # 1000000000000000) fR 2 2;
  T (-4150489428970996 # 1000000000000000) fL 2 2;
  T (2296396633859228 # 1000000000000000) fR 1 2;
  T (-2296396633859228 # 1000000000000000) fL 1 2;
  T (1897366596101028 # 1000000000000000) fR 2 1;
  T (-1897366596101028 # 1000000000000000) fL 2 1;
  T (-3368048396326869 # 1000000000000000) fR 1 1;
  T (-3368048396326869 # 1000000000000000) fL 1 1;
  T (2651650429449552 # 1000000000000000) fR 0 1;
  T (-2651650429449552 # 1000000000000000) fL 0 1;
  T (3458741190809163 # 10000000000000000) fR 2 0;
  T (3458741190809163 # 10000000000000000) fL 2 0;
  T (-4975526040028326 # 10000000000000000) fR 1 0;
  T (4975526040028326 # 10000000000000000) fL 1 0;
  T (3535533905932737 # 10000000000000000) fR 0 0;
  T (3535533905932737 # 10000000000000000) fL 0 0].

(** Lines 125-180. *)
Definition p2c1 : list term := [
  T (-1054224314958633 # 10000000000000) fR 2 6;
  T (-1054224314958633 # 10000000000000) fL 2 6;
  T (5594859750252903 # 10000000000000) f0 2 6;
  T (1382430773583255 # 10000000000000) fR 1 6;
  T (-1382430773583255 # 10000000000000) fL 1 6;
  T (-9280776503073433 # 100000000000000) fR 0 6;
  T (-9280776503073433 # 100000000000000) fL 0 6;
  T (1856155300614687 # 10000000000000) f0 0 6;
  T (-1577185983008978 # 100000000000000) fR 2 5;
  T (1577185983008978 # 100000000000000) fL 2 5;
  T (1821807996194988 # 100000000000000) fR 1 5;
  T (1821807996194988 # 100000000000000) fL 1 5;
  T (4072276697377032 # 100000000000000) f0 1 5;
  T (-1113693180368812 # 100000000000000) fR 0 5;
  T (1113693180368812 # 100000000000000) fL 0 5;
  T (5603160729110844 # 100000000000000) fR 2 4;
  T (5603160729110844 # 100000000000000) fL 2 4;
  T (-3195876860307667 # 10000000000000) f0 2 4;
  T (-750156233727348 # 10000000000000) fR 1 4;
  T (750156233727348 # 10000000000000) fL 1 4;
  T (5104427076690387 # 100000000000000) fR 0 4;
  T (5104427076690387 # 100000000000000) fL 0 4;
  T (-1020885415338078 # 10000000000000) f0 0 4;
  T (9091548272984086 # 1000000000000000) fR 2 3;
  T (-9091548272984086 # 1000000000000000) fL 2 3;
  T (-1148198316929614 # 100000000000000) fR 1 3;
  T (-1148198316929614 # 100000000000000) fL 1 3;
  T (-2908769069555023 # 100000000000000) f0 1 3;
  T (7513009550107064 # 1000000000000000) fR 0 3;
  T (-7513009550107064 # 1000000000000000) fL 0 3;
  T (-7300414442029338 # 1000000000000000) fR 2 2;
  T (-7300414442029338 # 1000000000000000) fL 2 2;
  T (5299285610204038 # 100000000000000) f0 2 2;
  T (9903210483517913 # 1000000000000000) fR 1 2;
  T (-9903210483517913 # 1000000000000000) fL 1 2;
  T (-6794854225464475 # 1000000000000000) fR 0 2;
  T (-6794854225464475 # 1000000000000000) fL 0 2;
  T (1358970845092895 # 100000000000000) f0 0 2;
  T (-9412717097844931 # 10000000000000000) fR 2 1;
  T (9412717097844931 # 10000000000000000) fL 2 1;
  T (1234313190699334 # 1000000000000000) fR 1 1;
  T (1234313190699334 # 1000000000000000) fL 1 1;
  T (5721854946032574 # 1000000000000000) f0 1 1;
  T (-8286407592029846 # 10000000000000000) fR 0 1;
  T (8286407592029846 # 10000000000000000) fL 0 1;
  T (1432907064763796 # 10000000000000000) fR 2 0;
  T (1432907064763796 # 10000000000000000) fL 2 0;
  T (-1670077889276424 # 1000000000000000) f0 2 0;
  T (-1961505458088089 # 10000000000000000) fR 1 0;
  T (1961505458088089 # 10000000000000000) fL 1 0;
  T (1353446573364875 # 10000000000000000) fR 0 0;
  T (1353446573364875 # 10000000000000000) fL 0 0;
  T (4364174665135718 # 10000000000000000) f0 0 0].

(** Lines 183-223. *)
Definition p2c0 : list term := [
  T (1210559416783207 # 100000000000000) fR 2 4;
  T (1210559416783207 # 100000000000000) fL 2 4;
  T (-864685297702291 # 10000000000000) f0 2 4;
  T (-1741434114009914 # 100000000000000) fR 1 4;
  T (1741434114009914 # 100000000000000) fL 1 4;
  T (1237436867076458 # 100000000000000) fR 0 4;
  T (1237436867076458 # 100000000000000) fL 0 4;
  T (-2474873734152916 # 100000000000000) f0 0 4;
  T (3458741190809164 # 1000000000000000) fR 2 3;
  T (-3458741190809164 # 1000000000000000) fL 2 3;
  T (-4975526040028328 # 1000000000000000) fR 1 3;
  T (-4975526040028328 # 1000000000000000) fL 1 3;
  T (-1454384534777511 # 100000000000000) f0 1 3;
  T (3535533905932737 # 1000000000000000) fR 0 3;
  T (-3535533905932737 # 1000000000000000) fL 0 3;
  T (-2594055893106872 # 1000000000000000) fR 2 2;
  T (-2594055893106872 # 1000000000000000) fL 2 2;
  T (2801580364555422 # 100000000000000) f0 2 2;
  T (3731644530021244 # 1000000000000000) fR 1 2;
  T (-3731644530021244 # 1000000000000000) fL 1 2;
  T (-2651650429449552 # 1000000000000000) fR 0 2;
  T (-2651650429449552 # 1000000000000000) fL 0 2;
  T (5303300858899105 # 1000000000000000) f0 0 2;
  T (-5188111786213743 # 10000000000000000) fR 2 1;
  T (5188111786213743 # 10000000000000000) fL 2 1;
  T (7463289060042488 # 10000000000000000) fR 1 1;
  T (7463289060042488 # 10000000000000000) fL 1 1;
  T (4631066544949443 # 1000000000000000) f0 1 1;
  T (-5303300858899105 # 10000000000000000) fR 0 1;
  T (5303300858899105 # 10000000000000000) fL 0 1;
  T (6485139732767176 # 100000000000000000) fR 2 0;
  T (6485139732767176 # 100000000000000000) fL 2 0;
  T (-1253793681668321 # 1000000000000000) f0 2 0;
  T (-9329111325053105 # 100000000000000000) fR 1 0;
  T (9329111325053105 # 100000000000000000) fL 1 0;
  T (6629126073623878 # 100000000000000000) fR 0 0;
  T (6629126073623878 # 100000000000000000) fL 0 0;
  T (5745242597140695 # 10000000000000000) f0 0 0].

(** Lines 230-290. *)
Definition p3e : list term := [
  T (5787876270165938 # 100000000000000) fR 3 7;
  T (5787876270165938 # 100000000000000) fL 3 7;
  T (-750052732521187 # 10000000000000) fR 2 7;
  T (750052732521187 # 10000000000000) fL 2 7;
  T (6315090743112876 # 100000000000000) fR 1 7;
  T (6315090743112876 # 100000000000000) fL 1 7;
  T (-3646019340493134 # 100000000000000) fR 0 7;
  T (3646019340493134 # 100000000000000) fL 0 7;
  T (2244994432064365 # 100000000000000) fR 3 6;
  T (-2244994432064365 # 100000000000000) fL 3 6;
  T (-1245146828691299 # 100000000000000) fR 2 6;
  T (-1245146828691299 # 100000000000000) fL 2 6;
  T (3214955287402919 # 1000000000000000) fR 1 6;
  T (-3214955287402919 # 1000000000000000) fL 1 6;
  T (-8103026778232312 # 100000000000000) fR 3 5;
  T (-8103026778232312 # 100000000000000) fL 3 5;
  T (1182889487256734 # 10000000000000) fR 2 5;
  T (-1182889487256734 # 10000000000000) fL 2 5;
  T (-1012710915531919 # 10000000000000) fR 1 5;
  T (-1012710915531919 # 10000000000000) fL 1 5;
  T (5846889196936262 # 100000000000000) fR 0 5;
  T (-5846889196936262 # 100000000000000) fL 0 5;
  T (-2806243040080456 # 100000000000000) fR 3 4;
  T (2806243040080456 # 100000000000000) fL 3 4;
  T (2075244714485499 # 100000000000000) fR 2 4;
  T (2075244714485499 # 100000000000000) fL 2 4;
  T (-53582588123382 # 10000000000000) fR 1 4;
  T (53582588123382 # 10000000000000) fL 1 4;
  T (2893938135082968 # 100000000000000) fR 3 3;
  T (2893938135082968 # 100000000000000) fL 3 3;
  T (-5015174726673287 # 100000000000000) fR 2 3;
  T (5015174726673287 # 100000000000000) fL 2 3;
  T (4688476460795923 # 100000000000000) fR 1 3;
  T (4688476460795923 # 100000000000000) fL 1 3;
  T (-270689314672975 # 10000000000000) fR 0 3;
  T (270689314672975 # 10000000000000) fL 0 3;
  T (8017837257372731 # 1000000000000000) fR 3 2;
  T (-8017837257372731 # 1000000000000000) fL 3 2;
  T (-8597442388582778 # 1000000000000000) fR 2 2;
  T (-8597442388582778 # 1000000000000000) fL 2 2;
  T (3444594950788841 # 1000000000000000) fR 1 2;
  T (-3444594950788841 # 1000000000000000) fL 1 2;
  T (-1929292090055312 # 1000000000000000) fR 3 1;
  T (-1929292090055312 # 1000000000000000) fL 3 1;
  T (4397542371171649 # 1000000000000000) fR 2 1;
  T (-4397542371171649 # 1000000000000000) fL 2 1;
  T (-5473078644031159 # 1000000000000000) fR 1 1;
  T (-5473078644031159 # 1000000000000000) fL 1 1;
  T (3866990209613929 # 1000000000000000) fR 0 1;
  T (-3866990209613929 # 1000000000000000) fL 0 1;
  T (-2672612419124243 # 10000000000000000) fR 3 0;
  T (2672612419124243 # 10000000000000000) fL 3 0;
  T (4941058844013091 # 10000000000000000) fR 2 0;
  T (4941058844013091 # 10000000000000000) fL 2 0;
  T (-5358258812338199 # 10000000000000000) fR 1 0;
  T (5358258812338199 # 10000000000000000) fL 1 0;
  T (3535533905932737 # 10000000000000000) fR 0 0;
  T (3535533905932737 # 10000000000000000) fL 0 0].

(** Lines 293-375. *)
Definition p3c1 : list term := [
  T (4018439810429493 # 10000000000000) fR 3 7;
  T (4018439810429493 # 10000000000000) fL 3 7;
  T (3132067901626939 # 1000000000000) f0 3 7;
  T (-6880918546172629 # 10000000000000) fR 2 7;
  T (6880918546172629 # 10000000000000) fL 2 7;
  T (6997120543369067 # 10000000000000) fR 1 7;
  T (6997120543369067 # 10000000000000) fL 1 7;
  T (168234017396527 # 100000000000) f0 1 7;
  T (-4448143595401623 # 10000000000000) fR 0 7;
  T (4448143595401623 # 10000000000000) fL 0 7;
  T (7173458771205661 # 100000000000000) fR 3 6;
  T (-7173458771205661 # 100000000000000) fL 3 6;
  T (-1151760816539451 # 10000000000000) fR 2 6;
  T (-1151760816539451 # 10000000000000) fL 2 6;
  T (3299639096031941 # 10000000000000) f0 2 6;
  T (11011221859355 # 100000000000) fR 1 6;
  T (-11011221859355 # 100000000000) fL 1 6;
  T (-6728562964728236 # 100000000000000) fR 0 6;
  T (-6728562964728236 # 100000000000000) fL 0 6;
  T (1345712592945648 # 10000000000000) f0 0 6;
  T (-2254640892514639 # 10000000000000) fR 3 5;
  T (-2254640892514639 # 10000000000000) fL 3 5;
  T (-1898949587184442 # 1000000000000) f0 3 5;
  T (3906648175018948 # 10000000000000) fR 2 5;
  T (-3906648175018948 # 10000000000000) fL 2 5;
  T (-4014675415144392 # 10000000000000) fR 1 5;
  T (-4014675415144392 # 10000000000000) fL 1 5;
  T (-9765426685486359 # 10000000000000) f0 1 5;
  T (2568454897225571 # 10000000000000) fR 0 5;
  T (-2568454897225571 # 10000000000000) fL 0 5;
  T (-3924355501362508 # 100000000000000) fR 3 4;
  T (3924355501362508 # 100000000000000) fL 3 4;
  T (6528373997652294 # 100000000000000) fR 2 4;
  T (6528373997652294 # 100000000000000) fL 2 4;
  T (-2135772685324658 # 10000000000000) f0 2 4;
  T (-646339969238295 # 10000000000000) fR 1 4;
  T (646339969238295 # 10000000000000) fL 1 4;
  T (4041004769046555 # 100000000000000) fR 0 4;
  T (4041004769046555 # 100000000000000) fL 0 4;
  T (-8082009538093111 # 100000000000000) f0 0 4;
  T (3599152857394851 # 100000000000000) fR 3 3;
  T (3599152857394851 # 100000000000000) fL 3 3;
  T (3572844328894097 # 10000000000000) f0 3 3;
  T (-6290585540784163 # 100000000000000) fR 2 3;
  T (6290585540784163 # 100000000000000) fL 2 3;
  T (6513633368748619 # 100000000000000) fR 1 3;
  T (6513633368748619 # 100000000000000) fL 1 3;
  T (1597430908428324 # 10000000000000) f0 1 3;
  T (-4186016901907076 # 100000000000000) fR 0 3;
  T (4186016901907076 # 100000000000000) fL 0 3;
  T (5206896265774277 # 1000000000000000) fR 3 2;
  T (-5206896265774277 # 1000000000000000) fL 3 2;
  T (-8847583492560934 # 1000000000000000) fR 2 2;
  T (-8847583492560934 # 1000000000000000) fL 2 2;
  T (4052285884446233 # 100000000000000) f0 2 2;
  T (8934418153608549 # 1000000000000000) fR 1 2;
  T (-8934418153608549 # 1000000000000000) fL 1 2;
  T (-5655473181560367 # 1000000000000000) fR 0 2;
  T (-5655473181560367 # 1000000000000000) fL 0 2;
  T (1131094636312074 # 100000000000000) f0 0 2;
  T (-145245001097914 # 100000000000000) fR 3 1;
  T (-145245001097914 # 100000000000000) fL 3 1;
  T (-1904079750242088 # 100000000000000) f0 3 1;
  T (2555453870888018 # 1000000000000000) fR 2 1;
  T (-2555453870888018 # 1000000000000000) fL 2 1;
  T (-2661188807467072 # 1000000000000000) fR 1 1;
  T (-2661188807467072 # 1000000000000000) fL 1 1;
  T (-4116769382158051 # 1000000000000000) f0 1 1;
  T (171597690551618 # 100000000000000) fR 0 1;
  T (-171597690551618 # 100000000000000) fL 0 1;
  T (-1034854320490978 # 10000000000000000) fR 3 0;
  T (1034854320490978 # 10000000000000000) fL 3 0;
  T (1783413426510973 # 10000000000000000) fR 2 0;
  T (1783413426510973 # 10000000000000000) fL 2 0;
  T (-1443715630985074 # 1000000000000000) f0 2 0;
  T (-1823960868039229 # 10000000000000000) fR 1 0;
  T (1823960868039229 # 10000000000000000) fL 1 0;
  T (116354973271419 # 1000000000000000) fR 0 0;
  T (116354973271419 # 1000000000000000) fL 0 0;
  T (4743968346437084 # 10000000000000000) f0 0 0].

(** Lines 378-440. *)
Definition p3c0 : list term := [
  T (-3367491648096548 # 100000000000000) fR 3 5;
  T (-3367491648096548 # 100000000000000) fL 3 5;
  T (-4040989977715859 # 10000000000000) f0 3 5;
  T (6225734143456496 # 100000000000000) fR 2 5;
  T (-6225734143456496 # 100000000000000) fL 2 5;
  T (-675140610354613 # 10000000000000) fR 1 5;
  T (-675140610354613 # 10000000000000) fL 1 5;
  T (-1736075855197576 # 10000000000000) f0 1 5;
  T (4454772721475249 # 100000000000000) fR 0 5;
  T (-4454772721475249 # 100000000000000) fL 0 5;
  T (-9354143466934852 # 1000000000000000) fR 3 4;
  T (9354143466934852 # 1000000000000000) fL 3 4;
  T (1729370595404582 # 100000000000000) fR 2 4;
  T (1729370595404582 # 100000000000000) fL 2 4;
  T (-7609230619780162 # 100000000000000) f0 2 4;
  T (-1875390584318369 # 100000000000000) fR 1 4;
  T (1875390584318369 # 100000000000000) fL 1 4;
  T (1237436867076458 # 100000000000000) fR 0 4;
  T (1237436867076458 # 100000000000000) fL 0 4;
  T (-2474873734152916 # 100000000000000) f0 0 4;
  T (9354143466934852 # 1000000000000000) fR 3 3;
  T (9354143466934852 # 1000000000000000) fL 3 3;
  T (1496662954709577 # 10000000000000) f0 3 3;
  T (-1729370595404582 # 100000000000000) fR 2 3;
  T (1729370595404582 # 100000000000000) fL 2 3;
  T (1875390584318369 # 100000000000000) fR 1 3;
  T (1875390584318369 # 100000000000000) fL 1 3;
  T (4822432931104378 # 100000000000000) f0 1 3;
  T (-1237436867076458 # 100000000000000) fR 0 3;
  T (1237436867076458 # 100000000000000) fL 0 3;
  T (2004459314343182 # 1000000000000000) fR 3 2;
  T (-2004459314343182 # 1000000000000000) fL 3 2;
  T (-3705794133009818 # 1000000000000000) fR 2 2;
  T (-3705794133009818 # 1000000000000000) fL 2 2;
  T (2579232716574833 # 100000000000000) f0 2 2;
  T (4018694109253648 # 1000000000000000) fR 1 2;
  T (-4018694109253648 # 1000000000000000) fL 1 2;
  T (-2651650429449552 # 1000000000000000) fR 0 2;
  T (-2651650429449552 # 1000000000000000) fL 0 2;
  T (5303300858899105 # 1000000000000000) f0 0 2;
  T (-5011148285857955 # 10000000000000000) fR 3 1;
  T (-5011148285857955 # 10000000000000000) fL 3 1;
  T (-1162586402319046 # 100000000000000) f0 3 1;
  T (926448533252454 # 1000000000000000) fR 2 1;
  T (-926448533252454 # 1000000000000000) fL 2 1;
  T (-1004673527313412 # 1000000000000000) fR 1 1;
  T (-1004673527313412 # 1000000000000000) fL 1 1;
  T (-1339564703084549 # 10000000000000000) f0 1 1;
  T (6629126073623879 # 10000000000000000) fR 0 1;
  T (-6629126073623879 # 10000000000000000) fL 0 1;
  T (-5011148285857954 # 100000000000000000) fR 3 0;
  T (5011148285857954 # 100000000000000000) fL 3 0;
  T (926448533252454 # 10000000000000000) fR 2 0;
  T (926448533252454 # 10000000000000000) fL 2 0;
  T (-1198206769673174 # 1000000000000000) f0 2 0;
  T (-1004673527313412 # 10000000000000000) fR 1 0;
  T (1004673527313412 # 10000000000000000) fL 1 0;
  T (6629126073623878 # 100000000000000000) fR 0 0;
  T (6629126073623878 # 100000000000000000) fL 0 0;
  T (5745242597140695 # 10000000000000000) f0 0 0].

(** Lines 443-445. *)
Definition recovC0Fn : list (list term) := [p1c0; p2c0; p3c0].
Definition recovC1Fn : list (list term) := [p1c1; p2c1; p3c1].
Definition recovEdFn : list (list term) := [p1e; p2e; p3e].
