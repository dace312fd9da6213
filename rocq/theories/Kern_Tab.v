(** * The expansion kernels of modalDG/kernels.
    Generated by tools/gen_kernels.py from the text of the files; do not edit. *)
From Coq Require Import List ZArith.
From Verif Require Import Kern_Exp.
Import ListNotations.
Open Scope list_scope.

(** expand1d.py 1-2. *)
Definition kt_1d1p : option kexp := Some (
   1.224744871391589 * Co 1 * Xv 0 + 0.7071067811865475 * Co 0)%kexp.

(** expand1d.py 8-13. *)
Definition kt_1d2p : option kexp := Some (
   2.371708245126284 * Co 2 * (Xo (Xv 0) (2 - 0.3333333333333333)) + 1.224744871391589 * Co 1 * Xv 0 +
   0.7071067811865475 * Co 0)%kexp.

(** expand1d.py 19-25. *)
Definition kt_1d3p : option kexp := Some (
   4.677071733467426 * Co 3 * (Xo (Xv 0) (3 - 0.6 * Xv 0)) + 2.371708245126284 * Co 2 * (Xo (Xv 0) (2 -
   0.3333333333333333)) + 1.224744871391589 * Co 1 * Xv 0 + 0.7071067811865475 * Co 0)%kexp.

(** expand1d.py 31-40. *)
Definition kt_1d4p : option kexp := Some (
   9.280776503073433 * Co 4 * (Xo (Xv 0) (4 - 0.8571428571428571 * (Xo (Xv 0) (2 - 0.3333333333333333)) - 0.2)) +
   4.677071733467426 * Co 3 * (Xo (Xv 0) (3 - 0.6 * Xv 0)) + 2.371708245126284 * Co 2 * (Xo (Xv 0) (2 -
   0.3333333333333333)) + 1.224744871391589 * Co 1 * Xv 0 + 0.7071067811865475 * Co 0)%kexp.

(** expand2d.py 1-7. *)
Definition kt_2d1p : option kexp := Some (
   1.5 * Co 3 * Xv 0 * Xv 1 + 0.8660254037844386 * Co 2 * Xv 1 + 0.8660254037844386 * Co 1 * Xv 0 + 0.5 * Co 0)%kexp.

(** expand2d.py 13-23. *)
Definition kt_2d2p : option kexp := Some (
   2.904737509655563 * Co 7 * (Xv 0 * (Xv 1)**2 - 0.3333333333333333 * Xv 0) + 1.677050983124842 * Co 5 * ((Xv
   1)**2 - 0.3333333333333333) + 2.904737509655563 * Co 6 * ((Xv 0)**2 * Xv 1 - 0.3333333333333333 * Xv 1) + 1.5
   * Co 3 * Xv 0 * Xv 1 + 0.8660254037844386 * Co 2 * Xv 1 + 1.677050983124842 * Co 4 * ((Xv 0)**2 -
   0.3333333333333333) + 0.8660254037844386 * Co 1 * Xv 0 + 0.5 * Co 0)%kexp.

(** expand2d.py 29-43. *)
Definition kt_2d3p : option kexp := Some (
   5.7282196186948 * Co 11 * (Xv 0 * (Xv 1)**3 - 0.6 * Xv 0 * Xv 1) + 3.307189138830738 * Co 9 * ((Xv 1)**3 - 0.6
   * Xv 1) + 2.904737509655563 * Co 7 * (Xv 0 * (Xv 1)**2 - 0.3333333333333333 * Xv 0) + 1.677050983124842 * Co 5
   * ((Xv 1)**2 - 0.3333333333333333) + 5.7282196186948 * Co 10 * ((Xv 0)**3 * Xv 1 - 0.6 * Xv 0 * Xv 1) +
   2.904737509655563 * Co 6 * ((Xv 0)**2 * Xv 1 - 0.3333333333333333 * Xv 1) + 1.5 * Co 3 * Xv 0 * Xv 1 +
   0.8660254037844386 * Co 2 * Xv 1 + 3.307189138830738 * Co 8 * ((Xv 0)**3 - 0.6 * Xv 0) + 1.677050983124842 *
   Co 4 * ((Xv 0)**2 - 0.3333333333333333) + 0.8660254037844386 * Co 1 * Xv 0 + 0.5 * Co 0)%kexp.

(** expand2d.py 49-83. *)
Definition kt_2d4p : option kexp := Some (
   11.36658342467076 * Co 16 * (Xv 0 * (Xv 1)**4 - 0.8571428571428571 * (Xv 0 * (Xv 1)**2 - 0.3333333333333333 *
   Xv 0) - 0.2 * Xv 0) + 6.5625 * Co 14 * ((Xv 1)**4 - 0.8571428571428571 * ((Xv 1)**2 - 0.3333333333333333) -
   0.2) + 5.7282196186948 * Co 12 * (Xv 0 * (Xv 1)**3 - 0.6 * Xv 0 * Xv 1) + 3.307189138830738 * Co 9 * ((Xv
   1)**3 - 0.6 * Xv 1) + 5.625 * Co 10 * ((Xv 0)**2 * (Xv 1)**2 - 0.3333333333333333 * ((Xv 1)**2 -
   0.3333333333333333) - 0.3333333333333333 * ((Xv 0)**2 - 0.3333333333333333) - 0.1111111111111111) +
   2.904737509655563 * Co 7 * (Xv 0 * (Xv 1)**2 - 0.3333333333333333 * Xv 0) + 1.677050983124842 * Co 5 * ((Xv
   1)**2 - 0.3333333333333333) + 11.36658342467076 * Co 15 * ((Ng (0.8571428571428571)) * ((Xv 0)**2 * Xv 1 -
   0.3333333333333333 * Xv 1) + (Xv 0)**4 * Xv 1 - 0.2 * Xv 1) + 5.7282196186948 * Co 11 * ((Xv 0)**3 * Xv 1 -
   0.6 * Xv 0 * Xv 1) + 2.904737509655563 * Co 6 * ((Xv 0)**2 * Xv 1 - 0.3333333333333333 * Xv 1) + 1.5 * Co 3 *
   Xv 0 * Xv 1 + 0.8660254037844386 * Co 2 * Xv 1 + 6.5625 * Co 13 * ((Xv 0)**4 - 0.8571428571428571 * ((Xv 0)**2
   - 0.3333333333333333) - 0.2) + 3.307189138830738 * Co 8 * ((Xv 0)**3 - 0.6 * Xv 0) + 1.677050983124842 * Co 4
   * ((Xv 0)**2 - 0.3333333333333333) + 0.8660254037844386 * Co 1 * Xv 0 + 0.5 * Co 0)%kexp.

(** expand3d.py 1-11. *)
Definition kt_3d1p : option kexp := Some (
   1.837117307087383 * Co 7 * Xv 0 * Xv 1 * Xv 2 + 1.060660171779821 * Co 6 * Xv 1 * Xv 2 + 1.060660171779821 *
   Co 5 * Xv 0 * Xv 2 + 0.6123724356957944 * Co 3 * Xv 2 + 1.060660171779821 * Co 4 * Xv 0 * Xv 1 +
   0.6123724356957944 * Co 2 * Xv 1 + 0.6123724356957944 * Co 1 * Xv 0 + 0.3535533905932737 * Co 0)%kexp.

(** expand3d.py 17-39. *)
Definition kt_3d2p : option kexp := Some (
   3.557562367689425 * Co 19 * (Xv 0 * Xv 1 * (Xv 2)**2 - 0.3333333333333333 * Xv 0 * Xv 1) + 2.053959590644372 *
   Co 16 * (Xv 1 * (Xv 2)**2 - 0.3333333333333333 * Xv 1) + 2.053959590644372 * Co 15 * (Xv 0 * (Xv 2)**2 -
   0.3333333333333333 * Xv 0) + 1.185854122563142 * Co 9 * ((Xv 2)**2 - 0.3333333333333333) + 3.557562367689425 *
   Co 18 * (Xv 0 * (Xv 1)**2 * Xv 2 - 0.3333333333333333 * Xv 0 * Xv 2) + 2.053959590644372 * Co 14 * ((Xv 1)**2
   * Xv 2 - 0.3333333333333333 * Xv 2) + 3.557562367689425 * Co 17 * ((Xv 0)**2 * Xv 1 * Xv 2 -
   0.3333333333333333 * Xv 1 * Xv 2) + 2.053959590644372 * Co 13 * ((Xv 0)**2 * Xv 2 - 0.3333333333333333 * Xv 2)
   + 1.837117307087383 * Co 10 * Xv 0 * Xv 1 * Xv 2 + 1.060660171779821 * Co 6 * Xv 1 * Xv 2 + 1.060660171779821
   * Co 5 * Xv 0 * Xv 2 + 0.6123724356957944 * Co 3 * Xv 2 + 2.053959590644372 * Co 12 * (Xv 0 * (Xv 1)**2 -
   0.3333333333333333 * Xv 0) + 1.185854122563142 * Co 8 * ((Xv 1)**2 - 0.3333333333333333) + 2.053959590644372 *
   Co 11 * ((Xv 0)**2 * Xv 1 - 0.3333333333333333 * Xv 1) + 1.060660171779821 * Co 4 * Xv 0 * Xv 1 +
   0.6123724356957944 * Co 2 * Xv 1 + 1.185854122563142 * Co 7 * ((Xv 0)**2 - 0.3333333333333333) +
   0.6123724356957944 * Co 1 * Xv 0 + 0.3535533905932737 * Co 0)%kexp.

(** expand3d.py 45-79. *)
Definition kt_3d3p : option kexp := Some (
   7.015607600201137 * Co 31 * (Xv 0 * Xv 1 * (Xv 2)**3 - 0.6 * Xv 0 * Xv 1 * Xv 2) + 4.050462936504911 * Co 28 *
   (Xv 1 * (Xv 2)**3 - 0.6 * Xv 1 * Xv 2) + 4.050462936504911 * Co 27 * (Xv 0 * (Xv 2)**3 - 0.6 * Xv 0 * Xv 2) +
   2.338535866733713 * Co 19 * ((Xv 2)**3 - 0.6 * Xv 2) + 3.557562367689425 * Co 22 * (Xv 0 * Xv 1 * (Xv 2)**2 -
   0.3333333333333333 * Xv 0 * Xv 1) + 2.053959590644372 * Co 16 * (Xv 1 * (Xv 2)**2 - 0.3333333333333333 * Xv 1)
   + 2.053959590644372 * Co 15 * (Xv 0 * (Xv 2)**2 - 0.3333333333333333 * Xv 0) + 1.185854122563142 * Co 9 * ((Xv
   2)**2 - 0.3333333333333333) + 7.015607600201137 * Co 30 * (Xv 0 * (Xv 1)**3 * Xv 2 - 0.6 * Xv 0 * Xv 1 * Xv 2)
   + 4.050462936504911 * Co 26 * ((Xv 1)**3 * Xv 2 - 0.6 * Xv 1 * Xv 2) + 3.557562367689425 * Co 21 * (Xv 0 * (Xv
   1)**2 * Xv 2 - 0.3333333333333333 * Xv 0 * Xv 2) + 2.053959590644372 * Co 14 * ((Xv 1)**2 * Xv 2 -
   0.3333333333333333 * Xv 2) + 7.015607600201137 * Co 29 * ((Xv 0)**3 * Xv 1 * Xv 2 - 0.6 * Xv 0 * Xv 1 * Xv 2)
   + 3.557562367689425 * Co 20 * ((Xv 0)**2 * Xv 1 * Xv 2 - 0.3333333333333333 * Xv 1 * Xv 2) + 4.050462936504911
   * Co 25 * ((Xv 0)**3 * Xv 2 - 0.6 * Xv 0 * Xv 2) + 2.053959590644372 * Co 13 * ((Xv 0)**2 * Xv 2 -
   0.3333333333333333 * Xv 2) + 1.837117307087383 * Co 10 * Xv 0 * Xv 1 * Xv 2 + 1.060660171779821 * Co 6 * Xv 1
   * Xv 2 + 1.060660171779821 * Co 5 * Xv 0 * Xv 2 + 0.6123724356957944 * Co 3 * Xv 2 + 4.050462936504911 * Co 24
   * (Xv 0 * (Xv 1)**3 - 0.6 * Xv 0 * Xv 1) + 2.338535866733713 * Co 18 * ((Xv 1)**3 - 0.6 * Xv 1) +
   2.053959590644372 * Co 12 * (Xv 0 * (Xv 1)**2 - 0.3333333333333333 * Xv 0) + 1.185854122563142 * Co 8 * ((Xv
   1)**2 - 0.3333333333333333) + 4.050462936504911 * Co 23 * ((Xv 0)**3 * Xv 1 - 0.6 * Xv 0 * Xv 1) +
   2.053959590644372 * Co 11 * ((Xv 0)**2 * Xv 1 - 0.3333333333333333 * Xv 1) + 1.060660171779821 * Co 4 * Xv 0 *
   Xv 1 + 0.6123724356957944 * Co 2 * Xv 1 + 2.338535866733713 * Co 17 * ((Xv 0)**3 - 0.6 * Xv 0) +
   1.185854122563142 * Co 7 * ((Xv 0)**2 - 0.3333333333333333) + 0.6123724356957944 * Co 1 * Xv 0 +
   0.3535533905932737 * Co 0)%kexp.

(** expand3d.py 85-185. *)
Definition kt_3d4p : option kexp := Some (
   13.92116475461015 * Co 49 * (Xv 0 * Xv 1 * (Xv 2)**4 - 0.8571428571428571 * (Xv 0 * Xv 1 * (Xv 2)**2 -
   0.3333333333333333 * Xv 0 * Xv 1) - 0.2 * Xv 0 * Xv 1) + 8.037388218507298 * Co 46 * (Xv 1 * (Xv 2)**4 -
   0.8571428571428571 * (Xv 1 * (Xv 2)**2 - 0.3333333333333333 * Xv 1) - 0.2 * Xv 1) + 8.037388218507298 * Co 45
   * (Xv 0 * (Xv 2)**4 - 0.8571428571428571 * (Xv 0 * (Xv 2)**2 - 0.3333333333333333 * Xv 0) - 0.2 * Xv 0) +
   4.640388251536716 * Co 34 * ((Xv 2)**4 - 0.8571428571428571 * ((Xv 2)**2 - 0.3333333333333333) - 0.2) +
   7.015607600201137 * Co 40 * (Xv 0 * Xv 1 * (Xv 2)**3 - 0.6 * Xv 0 * Xv 1 * Xv 2) + 4.050462936504911 * Co 31 *
   (Xv 1 * (Xv 2)**3 - 0.6 * Xv 1 * Xv 2) + 4.050462936504911 * Co 30 * (Xv 0 * (Xv 2)**3 - 0.6 * Xv 0 * Xv 2) +
   2.338535866733713 * Co 19 * ((Xv 2)**3 - 0.6 * Xv 2) + 6.889189901577683 * Co 36 * 6.889189901577683 * Co 37 *
   3.977475644174328 * Co 25 * 3.557562367689425 * Co 22 * (Xv 0 * Xv 1 * (Xv 2)**2 - 0.3333333333333333 * Xv 0 *
   Xv 1) + 2.053959590644372 * Co 16 * (Xv 1 * (Xv 2)**2 - 0.3333333333333333 * Xv 1) + 3.977475644174328 * Co 24
   * 2.053959590644372 * Co 15 * (Xv 0 * (Xv 2)**2 - 0.3333333333333333 * Xv 0) + 1.185854122563142 * Co 9 * ((Xv
   2)**2 - 0.3333333333333333) + 13.92116475461015 * Co 48 * ((Ng (0.8571428571428571)) * (Xv 0 * (Xv 1)**2 * Xv
   2 - 0.3333333333333333 * Xv 0 * Xv 2) + Xv 0 * (Xv 1)**4 * Xv 2 - 0.2 * Xv 0 * Xv 2) + 6.889189901577683 * Co
   35 * 8.037388218507298 * Co 44 * ((Ng (0.8571428571428571)) * ((Xv 1)**2 * Xv 2 - 0.3333333333333333 * Xv 2) +
   (Xv 1)**4 * Xv 2 - 0.2 * Xv 2) + 13.92116475461015 * Co 47 * ((Ng (0.8571428571428571)) * ((Xv 0)**2 * Xv 1 *
   Xv 2 - 0.3333333333333333 * Xv 1 * Xv 2) + (Xv 0)**4 * Xv 1 * Xv 2 - 0.2 * Xv 1 * Xv 2) + 8.037388218507298 *
   Co 43 * ((Ng (0.8571428571428571)) * ((Xv 0)**2 * Xv 2 - 0.3333333333333333 * Xv 2) + (Xv 0)**4 * Xv 2 - 0.2 *
   Xv 2) + 7.015607600201137 * Co 39 * (Xv 0 * (Xv 1)**3 * Xv 2 - 0.6 * Xv 0 * Xv 1 * Xv 2) + 4.050462936504911 *
   Co 29 * ((Xv 1)**3 * Xv 2 - 0.6 * Xv 1 * Xv 2) + 3.557562367689425 * Co 21 * (Xv 0 * (Xv 1)**2 * Xv 2 -
   0.3333333333333333 * Xv 0 * Xv 2) + 2.053959590644372 * Co 14 * ((Xv 1)**2 * Xv 2 - 0.3333333333333333 * Xv 2)
   + 7.015607600201137 * Co 38 * ((Xv 0)**3 * Xv 1 * Xv 2 - 0.6 * Xv 0 * Xv 1 * Xv 2) + 3.557562367689425 * Co 20
   * ((Xv 0)**2 * Xv 1 * Xv 2 - 0.3333333333333333 * Xv 1 * Xv 2) + 4.050462936504911 * Co 28 * ((Xv 0)**3 * Xv 2
   - 0.6 * Xv 0 * Xv 2) + 2.053959590644372 * Co 13 * ((Xv 0)**2 * Xv 2 - 0.3333333333333333 * Xv 2) +
   1.837117307087383 * Co 10 * Xv 0 * Xv 1 * Xv 2 + 1.060660171779821 * Co 6 * Xv 1 * Xv 2 + 1.060660171779821 *
   Co 5 * Xv 0 * Xv 2 + 0.6123724356957944 * Co 3 * Xv 2 + 8.037388218507298 * Co 42 * (Xv 0 * (Xv 1)**4 -
   0.8571428571428571 * (Xv 0 * (Xv 1)**2 - 0.3333333333333333 * Xv 0) - 0.2 * Xv 0) + 4.640388251536716 * Co 33
   * ((Xv 1)**4 - 0.8571428571428571 * ((Xv 1)**2 - 0.3333333333333333) - 0.2) + 4.050462936504911 * Co 27 * (Xv
   0 * (Xv 1)**3 - 0.6 * Xv 0 * Xv 1) + 2.338535866733713 * Co 18 * ((Xv 1)**3 - 0.6 * Xv 1) + 3.977475644174328
   * Co 23 * 2.053959590644372 * Co 12 * (Xv 0 * (Xv 1)**2 - 0.3333333333333333 * Xv 0) + 1.185854122563142 * Co
   8 * ((Xv 1)**2 - 0.3333333333333333) + 8.037388218507298 * Co 41 * ((Ng (0.8571428571428571)) * ((Xv 0)**2 *
   Xv 1 - 0.3333333333333333 * Xv 1) + (Xv 0)**4 * Xv 1 - 0.2 * Xv 1) + 4.050462936504911 * Co 26 * ((Xv 0)**3 *
   Xv 1 - 0.6 * Xv 0 * Xv 1) + 2.053959590644372 * Co 11 * ((Xv 0)**2 * Xv 1 - 0.3333333333333333 * Xv 1) +
   1.060660171779821 * Co 4 * Xv 0 * Xv 1 + 0.6123724356957944 * Co 2 * Xv 1 + 4.640388251536716 * Co 32 * ((Xv
   0)**4 - 0.8571428571428571 * ((Xv 0)**2 - 0.3333333333333333) - 0.2) + 2.338535866733713 * Co 17 * ((Xv 0)**3
   - 0.6 * Xv 0) + 1.185854122563142 * Co 7 * ((Xv 0)**2 - 0.3333333333333333) + 0.6123724356957944 * Co 1 * Xv 0
   + 0.3535533905932737 * Co 0)%kexp.

(** expand4d.py 1-19. *)
Definition kt_4d1p : option kexp := Some (
   2.25 * Co 15 * Xv 3 * Xv 0 * Xv 1 * Xv 2 + 1.299038105676658 * Co 11 * Xv 0 * Xv 1 * Xv 2 + 1.299038105676658
   * Co 14 * Xv 3 * Xv 1 * Xv 2 + 0.75 * Co 7 * Xv 1 * Xv 2 + 1.299038105676658 * Co 13 * Xv 3 * Xv 0 * Xv 2 +
   0.75 * Co 6 * Xv 0 * Xv 2 + 0.75 * Co 10 * Xv 3 * Xv 2 + 0.4330127018922193 * Co 3 * Xv 2 + 1.299038105676658
   * Co 12 * Xv 3 * Xv 0 * Xv 1 + 0.75 * Co 5 * Xv 0 * Xv 1 + 0.75 * Co 9 * Xv 3 * Xv 1 + 0.4330127018922193 * Co
   2 * Xv 1 + 0.75 * Co 8 * Xv 3 * Xv 0 + 0.4330127018922193 * Co 1 * Xv 0 + 0.4330127018922193 * Co 4 * Xv 3 +
   0.25 * Co 0)%kexp.

(** expand4d.py 25-83. *)
Definition kt_4d2p : option kexp := Some (
   4.357106264483344 * Co 46 * (Xv 3 * Xv 0 * Xv 1 * (Xv 2)**2 - 0.3333333333333333 * Xv 3 * Xv 0 * Xv 1) +
   2.515576474687264 * Co 34 * (Xv 0 * Xv 1 * (Xv 2)**2 - 0.3333333333333333 * Xv 0 * Xv 1) + 2.515576474687264 *
   Co 40 * (Xv 3 * Xv 1 * (Xv 2)**2 - 0.3333333333333333 * Xv 3 * Xv 1) + 1.452368754827781 * Co 24 * (Xv 1 * (Xv
   2)**2 - 0.3333333333333333 * Xv 1) + 2.515576474687264 * Co 39 * (Xv 3 * Xv 0 * (Xv 2)**2 - 0.3333333333333333
   * Xv 3 * Xv 0) + 1.452368754827781 * Co 23 * (Xv 0 * (Xv 2)**2 - 0.3333333333333333 * Xv 0) +
   1.452368754827781 * Co 27 * (Xv 3 * (Xv 2)**2 - 0.3333333333333333 * Xv 3) + 0.8385254915624212 * Co 13 * ((Xv
   2)**2 - 0.3333333333333333) + 4.357106264483344 * Co 45 * (Xv 3 * Xv 0 * (Xv 1)**2 * Xv 2 - 0.3333333333333333
   * Xv 3 * Xv 0 * Xv 2) + 2.515576474687264 * Co 33 * (Xv 0 * (Xv 1)**2 * Xv 2 - 0.3333333333333333 * Xv 0 * Xv
   2) + 2.515576474687264 * Co 38 * (Xv 3 * (Xv 1)**2 * Xv 2 - 0.3333333333333333 * Xv 3 * Xv 2) +
   1.452368754827781 * Co 22 * ((Xv 1)**2 * Xv 2 - 0.3333333333333333 * Xv 2) + 4.357106264483344 * Co 44 * (Xv 3
   * (Xv 0)**2 * Xv 1 * Xv 2 - 0.3333333333333333 * Xv 3 * Xv 1 * Xv 2) + 2.515576474687264 * Co 32 * ((Xv 0)**2
   * Xv 1 * Xv 2 - 0.3333333333333333 * Xv 1 * Xv 2) + 4.357106264483344 * Co 47 * ((Xv 3)**2 * Xv 0 * Xv 1 * Xv
   2 - 0.3333333333333333 * Xv 0 * Xv 1 * Xv 2) + 2.515576474687264 * Co 43 * ((Xv 3)**2 * Xv 1 * Xv 2 -
   0.3333333333333333 * Xv 1 * Xv 2) + 2.515576474687264 * Co 37 * (Xv 3 * (Xv 0)**2 * Xv 2 - 0.3333333333333333
   * Xv 3 * Xv 2) + 1.452368754827781 * Co 21 * ((Xv 0)**2 * Xv 2 - 0.3333333333333333 * Xv 2) +
   2.515576474687264 * Co 42 * ((Xv 3)**2 * Xv 0 * Xv 2 - 0.3333333333333333 * Xv 0 * Xv 2) + 1.452368754827781 *
   Co 30 * ((Xv 3)**2 * Xv 2 - 0.3333333333333333 * Xv 2) + 2.25 * Co 31 * Xv 3 * Xv 0 * Xv 1 * Xv 2 +
   1.299038105676658 * Co 15 * Xv 0 * Xv 1 * Xv 2 + 1.299038105676658 * Co 18 * Xv 3 * Xv 1 * Xv 2 + 0.75 * Co 7
   * Xv 1 * Xv 2 + 1.299038105676658 * Co 17 * Xv 3 * Xv 0 * Xv 2 + 0.75 * Co 6 * Xv 0 * Xv 2 + 0.75 * Co 10 * Xv
   3 * Xv 2 + 0.4330127018922193 * Co 3 * Xv 2 + 2.515576474687264 * Co 36 * (Xv 3 * Xv 0 * (Xv 1)**2 -
   0.3333333333333333 * Xv 3 * Xv 0) + 1.452368754827781 * Co 20 * (Xv 0 * (Xv 1)**2 - 0.3333333333333333 * Xv 0)
   + 1.452368754827781 * Co 26 * (Xv 3 * (Xv 1)**2 - 0.3333333333333333 * Xv 3) + 0.8385254915624212 * Co 12 *
   ((Xv 1)**2 - 0.3333333333333333) + 2.515576474687264 * Co 35 * (Xv 3 * (Xv 0)**2 * Xv 1 - 0.3333333333333333 *
   Xv 3 * Xv 1) + 1.452368754827781 * Co 19 * ((Xv 0)**2 * Xv 1 - 0.3333333333333333 * Xv 1) + 2.515576474687264
   * Co 41 * ((Xv 3)**2 * Xv 0 * Xv 1 - 0.3333333333333333 * Xv 0 * Xv 1) + 1.452368754827781 * Co 29 * ((Xv
   3)**2 * Xv 1 - 0.3333333333333333 * Xv 1) + 1.299038105676658 * Co 16 * Xv 3 * Xv 0 * Xv 1 + 0.75 * Co 5 * Xv
   0 * Xv 1 + 0.75 * Co 9 * Xv 3 * Xv 1 + 0.4330127018922193 * Co 2 * Xv 1 + 1.452368754827781 * Co 25 * (Xv 3 *
   (Xv 0)**2 - 0.3333333333333333 * Xv 3) + 0.8385254915624212 * Co 11 * ((Xv 0)**2 - 0.3333333333333333) +
   1.452368754827781 * Co 28 * ((Xv 3)**2 * Xv 0 - 0.3333333333333333 * Xv 0) + 0.75 * Co 8 * Xv 3 * Xv 0 +
   0.4330127018922193 * Co 1 * Xv 0 + 0.8385254915624212 * Co 14 * ((Xv 3)**2 - 0.3333333333333333) +
   0.4330127018922193 * Co 4 * Xv 3 + 0.25 * Co 0)%kexp.

(** expand4d.py 89-179. *)
Definition kt_4d3p : option kexp := Some (
   8.5923294280422 * Co 78 * (Xv 3 * Xv 0 * Xv 1 * (Xv 2)**3 - 0.6 * Xv 3 * Xv 0 * Xv 1 * Xv 2) +
   4.960783708246107 * Co 66 * (Xv 0 * Xv 1 * (Xv 2)**3 - 0.6 * Xv 0 * Xv 1 * Xv 2) + 4.960783708246107 * Co 72 *
   (Xv 3 * Xv 1 * (Xv 2)**3 - 0.6 * Xv 3 * Xv 1 * Xv 2) + 2.8641098093474 * Co 53 * (Xv 1 * (Xv 2)**3 - 0.6 * Xv
   1 * Xv 2) + 4.960783708246107 * Co 71 * (Xv 3 * Xv 0 * (Xv 2)**3 - 0.6 * Xv 3 * Xv 0 * Xv 2) + 2.8641098093474
   * Co 52 * (Xv 0 * (Xv 2)**3 - 0.6 * Xv 0 * Xv 2) + 2.8641098093474 * Co 56 * (Xv 3 * (Xv 2)**3 - 0.6 * Xv 3 *
   Xv 2) + 1.653594569415369 * Co 33 * ((Xv 2)**3 - 0.6 * Xv 2) + 4.357106264483344 * Co 62 * (Xv 3 * Xv 0 * Xv 1
   * (Xv 2)**2 - 0.3333333333333333 * Xv 3 * Xv 0 * Xv 1) + 2.515576474687264 * Co 38 * (Xv 0 * Xv 1 * (Xv 2)**2
   - 0.3333333333333333 * Xv 0 * Xv 1) + 2.515576474687264 * Co 44 * (Xv 3 * Xv 1 * (Xv 2)**2 -
   0.3333333333333333 * Xv 3 * Xv 1) + 1.452368754827781 * Co 24 * (Xv 1 * (Xv 2)**2 - 0.3333333333333333 * Xv 1)
   + 2.515576474687264 * Co 43 * (Xv 3 * Xv 0 * (Xv 2)**2 - 0.3333333333333333 * Xv 3 * Xv 0) + 1.452368754827781
   * Co 23 * (Xv 0 * (Xv 2)**2 - 0.3333333333333333 * Xv 0) + 1.452368754827781 * Co 27 * (Xv 3 * (Xv 2)**2 -
   0.3333333333333333 * Xv 3) + 0.8385254915624212 * Co 13 * ((Xv 2)**2 - 0.3333333333333333) + 8.5923294280422 *
   Co 77 * (Xv 3 * Xv 0 * (Xv 1)**3 * Xv 2 - 0.6 * Xv 3 * Xv 0 * Xv 1 * Xv 2) + 4.960783708246107 * Co 65 * (Xv 0
   * (Xv 1)**3 * Xv 2 - 0.6 * Xv 0 * Xv 1 * Xv 2) + 4.960783708246107 * Co 70 * (Xv 3 * (Xv 1)**3 * Xv 2 - 0.6 *
   Xv 3 * Xv 1 * Xv 2) + 2.8641098093474 * Co 51 * ((Xv 1)**3 * Xv 2 - 0.6 * Xv 1 * Xv 2) + 4.357106264483344 *
   Co 61 * (Xv 3 * Xv 0 * (Xv 1)**2 * Xv 2 - 0.3333333333333333 * Xv 3 * Xv 0 * Xv 2) + 2.515576474687264 * Co 37
   * (Xv 0 * (Xv 1)**2 * Xv 2 - 0.3333333333333333 * Xv 0 * Xv 2) + 2.515576474687264 * Co 42 * (Xv 3 * (Xv 1)**2
   * Xv 2 - 0.3333333333333333 * Xv 3 * Xv 2) + 1.452368754827781 * Co 22 * ((Xv 1)**2 * Xv 2 -
   0.3333333333333333 * Xv 2) + 8.5923294280422 * Co 76 * (Xv 3 * (Xv 0)**3 * Xv 1 * Xv 2 - 0.6 * Xv 3 * Xv 0 *
   Xv 1 * Xv 2) + 4.960783708246107 * Co 64 * ((Xv 0)**3 * Xv 1 * Xv 2 - 0.6 * Xv 0 * Xv 1 * Xv 2) +
   4.357106264483344 * Co 60 * (Xv 3 * (Xv 0)**2 * Xv 1 * Xv 2 - 0.3333333333333333 * Xv 3 * Xv 1 * Xv 2) +
   2.515576474687264 * Co 36 * ((Xv 0)**2 * Xv 1 * Xv 2 - 0.3333333333333333 * Xv 1 * Xv 2) + 8.5923294280422 *
   Co 79 * ((Xv 3)**3 * Xv 0 * Xv 1 * Xv 2 - 0.6 * Xv 3 * Xv 0 * Xv 1 * Xv 2) + 4.357106264483344 * Co 63 * ((Xv
   3)**2 * Xv 0 * Xv 1 * Xv 2 - 0.3333333333333333 * Xv 0 * Xv 1 * Xv 2) + 4.960783708246107 * Co 75 * ((Xv 3)**3
   * Xv 1 * Xv 2 - 0.6 * Xv 3 * Xv 1 * Xv 2) + 2.515576474687264 * Co 47 * ((Xv 3)**2 * Xv 1 * Xv 2 -
   0.3333333333333333 * Xv 1 * Xv 2) + 4.960783708246107 * Co 69 * (Xv 3 * (Xv 0)**3 * Xv 2 - 0.6 * Xv 3 * Xv 0 *
   Xv 2) + 2.8641098093474 * Co 50 * ((Xv 0)**3 * Xv 2 - 0.6 * Xv 0 * Xv 2) + 2.515576474687264 * Co 41 * (Xv 3 *
   (Xv 0)**2 * Xv 2 - 0.3333333333333333 * Xv 3 * Xv 2) + 1.452368754827781 * Co 21 * ((Xv 0)**2 * Xv 2 -
   0.3333333333333333 * Xv 2) + 4.960783708246107 * Co 74 * ((Xv 3)**3 * Xv 0 * Xv 2 - 0.6 * Xv 3 * Xv 0 * Xv 2)
   + 2.515576474687264 * Co 46 * ((Xv 3)**2 * Xv 0 * Xv 2 - 0.3333333333333333 * Xv 0 * Xv 2) + 2.8641098093474 *
   Co 59 * ((Xv 3)**3 * Xv 2 - 0.6 * Xv 3 * Xv 2) + 1.452368754827781 * Co 30 * ((Xv 3)**2 * Xv 2 -
   0.3333333333333333 * Xv 2) + 2.25 * Co 35 * Xv 3 * Xv 0 * Xv 1 * Xv 2 + 1.299038105676658 * Co 15 * Xv 0 * Xv
   1 * Xv 2 + 1.299038105676658 * Co 18 * Xv 3 * Xv 1 * Xv 2 + 0.75 * Co 7 * Xv 1 * Xv 2 + 1.299038105676658 * Co
   17 * Xv 3 * Xv 0 * Xv 2 + 0.75 * Co 6 * Xv 0 * Xv 2 + 0.75 * Co 10 * Xv 3 * Xv 2 + 0.4330127018922193 * Co 3 *
   Xv 2 + 4.960783708246107 * Co 68 * (Xv 3 * Xv 0 * (Xv 1)**3 - 0.6 * Xv 3 * Xv 0 * Xv 1) + 2.8641098093474 * Co
   49 * (Xv 0 * (Xv 1)**3 - 0.6 * Xv 0 * Xv 1) + 2.8641098093474 * Co 55 * (Xv 3 * (Xv 1)**3 - 0.6 * Xv 3 * Xv 1)
   + 1.653594569415369 * Co 32 * ((Xv 1)**3 - 0.6 * Xv 1) + 2.515576474687264 * Co 40 * (Xv 3 * Xv 0 * (Xv 1)**2
   - 0.3333333333333333 * Xv 3 * Xv 0) + 1.452368754827781 * Co 20 * (Xv 0 * (Xv 1)**2 - 0.3333333333333333 * Xv
   0) + 1.452368754827781 * Co 26 * (Xv 3 * (Xv 1)**2 - 0.3333333333333333 * Xv 3) + 0.8385254915624212 * Co 12 *
   ((Xv 1)**2 - 0.3333333333333333) + 4.960783708246107 * Co 67 * (Xv 3 * (Xv 0)**3 * Xv 1 - 0.6 * Xv 3 * Xv 0 *
   Xv 1) + 2.8641098093474 * Co 48 * ((Xv 0)**3 * Xv 1 - 0.6 * Xv 0 * Xv 1) + 2.515576474687264 * Co 39 * (Xv 3 *
   (Xv 0)**2 * Xv 1 - 0.3333333333333333 * Xv 3 * Xv 1) + 1.452368754827781 * Co 19 * ((Xv 0)**2 * Xv 1 -
   0.3333333333333333 * Xv 1) + 4.960783708246107 * Co 73 * ((Xv 3)**3 * Xv 0 * Xv 1 - 0.6 * Xv 3 * Xv 0 * Xv 1)
   + 2.515576474687264 * Co 45 * ((Xv 3)**2 * Xv 0 * Xv 1 - 0.3333333333333333 * Xv 0 * Xv 1) + 2.8641098093474 *
   Co 58 * ((Xv 3)**3 * Xv 1 - 0.6 * Xv 3 * Xv 1) + 1.452368754827781 * Co 29 * ((Xv 3)**2 * Xv 1 -
   0.3333333333333333 * Xv 1) + 1.299038105676658 * Co 16 * Xv 3 * Xv 0 * Xv 1 + 0.75 * Co 5 * Xv 0 * Xv 1 + 0.75
   * Co 9 * Xv 3 * Xv 1 + 0.4330127018922193 * Co 2 * Xv 1 + 2.8641098093474 * Co 54 * (Xv 3 * (Xv 0)**3 - 0.6 *
   Xv 3 * Xv 0) + 1.653594569415369 * Co 31 * ((Xv 0)**3 - 0.6 * Xv 0) + 1.452368754827781 * Co 25 * (Xv 3 * (Xv
   0)**2 - 0.3333333333333333 * Xv 3) + 0.8385254915624212 * Co 11 * ((Xv 0)**2 - 0.3333333333333333) +
   2.8641098093474 * Co 57 * ((Xv 3)**3 * Xv 0 - 0.6 * Xv 3 * Xv 0) + 1.452368754827781 * Co 28 * ((Xv 3)**2 * Xv
   0 - 0.3333333333333333 * Xv 0) + 0.75 * Co 8 * Xv 3 * Xv 0 + 0.4330127018922193 * Co 1 * Xv 0 +
   1.653594569415369 * Co 34 * ((Xv 3)**3 - 0.6 * Xv 3) + 0.8385254915624212 * Co 14 * ((Xv 3)**2 -
   0.3333333333333333) + 0.4330127018922193 * Co 4 * Xv 3 + 0.25 * Co 0)%kexp.

(** expand4d.py 185-517. *)
Definition kt_4d4p : option kexp := Some (
   17.04987513700613 * Co 134 * (Xv 3 * Xv 0 * Xv 1 * (Xv 2)**4 - 0.8571428571428571 * (Xv 3 * Xv 0 * Xv 1 * (Xv
   2)**2 - 0.3333333333333333 * Xv 3 * Xv 0 * Xv 1) - 0.2 * Xv 3 * Xv 0 * Xv 1) + 9.84375 * Co 122 * (Xv 0 * Xv 1
   * (Xv 2)**4 - 0.8571428571428571 * (Xv 0 * Xv 1 * (Xv 2)**2 - 0.3333333333333333 * Xv 0 * Xv 1) - 0.2 * Xv 0 *
   Xv 1) + 9.84375 * Co 128 * (Xv 3 * Xv 1 * (Xv 2)**4 - 0.8571428571428571 * (Xv 3 * Xv 1 * (Xv 2)**2 -
   0.3333333333333333 * Xv 3 * Xv 1) - 0.2 * Xv 3 * Xv 1) + 5.683291712335378 * Co 103 * (Xv 1 * (Xv 2)**4 -
   0.8571428571428571 * (Xv 1 * (Xv 2)**2 - 0.3333333333333333 * Xv 1) - 0.2 * Xv 1) + 9.84375 * Co 127 * (Xv 3 *
   Xv 0 * (Xv 2)**4 - 0.8571428571428571 * (Xv 3 * Xv 0 * (Xv 2)**2 - 0.3333333333333333 * Xv 3 * Xv 0) - 0.2 *
   Xv 3 * Xv 0) + 5.683291712335378 * Co 102 * (Xv 0 * (Xv 2)**4 - 0.8571428571428571 * (Xv 0 * (Xv 2)**2 -
   0.3333333333333333 * Xv 0) - 0.2 * Xv 0) + 5.683291712335378 * Co 106 * (Xv 3 * (Xv 2)**4 - 0.8571428571428571
   * (Xv 3 * (Xv 2)**2 - 0.3333333333333333 * Xv 3) - 0.2 * Xv 3) + 3.28125 * Co 68 * ((Xv 2)**4 -
   0.8571428571428571 * ((Xv 2)**2 - 0.3333333333333333) - 0.2) + 8.5923294280422 * Co 118 * (Xv 3 * Xv 0 * Xv 1
   * (Xv 2)**3 - 0.6 * Xv 3 * Xv 0 * Xv 1 * Xv 2) + 4.960783708246107 * Co 88 * (Xv 0 * Xv 1 * (Xv 2)**3 - 0.6 *
   Xv 0 * Xv 1 * Xv 2) + 4.960783708246107 * Co 94 * (Xv 3 * Xv 1 * (Xv 2)**3 - 0.6 * Xv 3 * Xv 1 * Xv 2) +
   2.8641098093474 * Co 59 * (Xv 1 * (Xv 2)**3 - 0.6 * Xv 1 * Xv 2) + 4.960783708246107 * Co 93 * (Xv 3 * Xv 0 *
   (Xv 2)**3 - 0.6 * Xv 3 * Xv 0 * Xv 2) + 2.8641098093474 * Co 58 * (Xv 0 * (Xv 2)**3 - 0.6 * Xv 0 * Xv 2) +
   2.8641098093474 * Co 62 * (Xv 3 * (Xv 2)**3 - 0.6 * Xv 3 * Xv 2) + 1.653594569415369 * Co 33 * ((Xv 2)**3 -
   0.6 * Xv 2) + 8.4375 * Co 115 * 8.4375 * Co 111 * 4.871392896287466 * Co 75 * 4.871392896287466 * Co 85 *
   8.4375 * Co 112 * 4.871392896287466 * Co 76 * 4.871392896287466 * Co 84 * 4.871392896287466 * Co 79 *
   4.871392896287466 * Co 78 * 2.8125 * Co 50 * 4.357106264483344 * Co 72 * (Xv 3 * Xv 0 * Xv 1 * (Xv 2)**2 -
   0.3333333333333333 * Xv 3 * Xv 0 * Xv 1) + 2.515576474687264 * Co 38 * (Xv 0 * Xv 1 * (Xv 2)**2 -
   0.3333333333333333 * Xv 0 * Xv 1) + 2.515576474687264 * Co 44 * (Xv 3 * Xv 1 * (Xv 2)**2 - 0.3333333333333333
   * Xv 3 * Xv 1) + 1.452368754827781 * Co 24 * (Xv 1 * (Xv 2)**2 - 0.3333333333333333 * Xv 1) + 2.8125 * Co 49 *
   2.515576474687264 * Co 43 * (Xv 3 * Xv 0 * (Xv 2)**2 - 0.3333333333333333 * Xv 3 * Xv 0) + 1.452368754827781 *
   Co 23 * (Xv 0 * (Xv 2)**2 - 0.3333333333333333 * Xv 0) + 2.8125 * Co 53 * 1.452368754827781 * Co 27 * (Xv 3 *
   (Xv 2)**2 - 0.3333333333333333 * Xv 3) + 0.8385254915624212 * Co 13 * ((Xv 2)**2 - 0.3333333333333333) +
   17.04987513700613 * Co 133 * ((Ng (0.8571428571428571)) * (Xv 3 * Xv 0 * (Xv 1)**2 * Xv 2 - 0.3333333333333333
   * Xv 3 * Xv 0 * Xv 2) + Xv 3 * Xv 0 * (Xv 1)**4 * Xv 2 - 0.2 * Xv 3 * Xv 0 * Xv 2) + 8.4375 * Co 114 * 9.84375
   * Co 121 * ((Ng (0.8571428571428571)) * (Xv 0 * (Xv 1)**2 * Xv 2 - 0.3333333333333333 * Xv 0 * Xv 2) + Xv 0 *
   (Xv 1)**4 * Xv 2 - 0.2 * Xv 0 * Xv 2) + 8.4375 * Co 110 * 9.84375 * Co 126 * ((Ng (0.8571428571428571)) * (Xv
   3 * (Xv 1)**2 * Xv 2 - 0.3333333333333333 * Xv 3 * Xv 2) + Xv 3 * (Xv 1)**4 * Xv 2 - 0.2 * Xv 3 * Xv 2) +
   4.871392896287466 * Co 74 * 4.871392896287466 * Co 83 * 5.683291712335378 * Co 101 * ((Ng
   (0.8571428571428571)) * ((Xv 1)**2 * Xv 2 - 0.3333333333333333 * Xv 2) + (Xv 1)**4 * Xv 2 - 0.2 * Xv 2) +
   17.04987513700613 * Co 132 * ((Ng (0.8571428571428571)) * (Xv 3 * (Xv 0)**2 * Xv 1 * Xv 2 - 0.3333333333333333
   * Xv 3 * Xv 1 * Xv 2) + Xv 3 * (Xv 0)**4 * Xv 1 * Xv 2 - 0.2 * Xv 3 * Xv 1 * Xv 2) + 8.4375 * Co 113 * 9.84375
   * Co 120 * ((Ng (0.8571428571428571)) * ((Xv 0)**2 * Xv 1 * Xv 2 - 0.3333333333333333 * Xv 1 * Xv 2) + (Xv
   0)**4 * Xv 1 * Xv 2 - 0.2 * Xv 1 * Xv 2) + 17.04987513700613 * Co 135 * ((Ng (0.8571428571428571)) * ((Xv
   3)**2 * Xv 0 * Xv 1 * Xv 2 - 0.3333333333333333 * Xv 0 * Xv 1 * Xv 2) + (Xv 3)**4 * Xv 0 * Xv 1 * Xv 2 - 0.2 *
   Xv 0 * Xv 1 * Xv 2) + 9.84375 * Co 131 * ((Ng (0.8571428571428571)) * ((Xv 3)**2 * Xv 1 * Xv 2 -
   0.3333333333333333 * Xv 1 * Xv 2) + (Xv 3)**4 * Xv 1 * Xv 2 - 0.2 * Xv 1 * Xv 2) + 9.84375 * Co 125 * ((Ng
   (0.8571428571428571)) * (Xv 3 * (Xv 0)**2 * Xv 2 - 0.3333333333333333 * Xv 3 * Xv 2) + Xv 3 * (Xv 0)**4 * Xv 2
   - 0.2 * Xv 3 * Xv 2) + 4.871392896287466 * Co 82 * 5.683291712335378 * Co 100 * ((Ng (0.8571428571428571)) *
   ((Xv 0)**2 * Xv 2 - 0.3333333333333333 * Xv 2) + (Xv 0)**4 * Xv 2 - 0.2 * Xv 2) + 9.84375 * Co 130 * ((Ng
   (0.8571428571428571)) * ((Xv 3)**2 * Xv 0 * Xv 2 - 0.3333333333333333 * Xv 0 * Xv 2) + (Xv 3)**4 * Xv 0 * Xv 2
   - 0.2 * Xv 0 * Xv 2) + 5.683291712335378 * Co 109 * ((Ng (0.8571428571428571)) * ((Xv 3)**2 * Xv 2 -
   0.3333333333333333 * Xv 2) + (Xv 3)**4 * Xv 2 - 0.2 * Xv 2) + 8.5923294280422 * Co 117 * (Xv 3 * Xv 0 * (Xv
   1)**3 * Xv 2 - 0.6 * Xv 3 * Xv 0 * Xv 1 * Xv 2) + 4.960783708246107 * Co 87 * (Xv 0 * (Xv 1)**3 * Xv 2 - 0.6 *
   Xv 0 * Xv 1 * Xv 2) + 4.960783708246107 * Co 92 * (Xv 3 * (Xv 1)**3 * Xv 2 - 0.6 * Xv 3 * Xv 1 * Xv 2) +
   2.8641098093474 * Co 57 * ((Xv 1)**3 * Xv 2 - 0.6 * Xv 1 * Xv 2) + 4.357106264483344 * Co 71 * (Xv 3 * Xv 0 *
   (Xv 1)**2 * Xv 2 - 0.3333333333333333 * Xv 3 * Xv 0 * Xv 2) + 2.515576474687264 * Co 37 * (Xv 0 * (Xv 1)**2 *
   Xv 2 - 0.3333333333333333 * Xv 0 * Xv 2) + 2.515576474687264 * Co 42 * (Xv 3 * (Xv 1)**2 * Xv 2 -
   0.3333333333333333 * Xv 3 * Xv 2) + 1.452368754827781 * Co 22 * ((Xv 1)**2 * Xv 2 - 0.3333333333333333 * Xv 2)
   + 8.5923294280422 * Co 116 * (Xv 3 * (Xv 0)**3 * Xv 1 * Xv 2 - 0.6 * Xv 3 * Xv 0 * Xv 1 * Xv 2) +
   4.960783708246107 * Co 86 * ((Xv 0)**3 * Xv 1 * Xv 2 - 0.6 * Xv 0 * Xv 1 * Xv 2) + 4.357106264483344 * Co 70 *
   (Xv 3 * (Xv 0)**2 * Xv 1 * Xv 2 - 0.3333333333333333 * Xv 3 * Xv 1 * Xv 2) + 2.515576474687264 * Co 36 * ((Xv
   0)**2 * Xv 1 * Xv 2 - 0.3333333333333333 * Xv 1 * Xv 2) + 8.5923294280422 * Co 119 * ((Xv 3)**3 * Xv 0 * Xv 1
   * Xv 2 - 0.6 * Xv 3 * Xv 0 * Xv 1 * Xv 2) + 4.357106264483344 * Co 73 * ((Xv 3)**2 * Xv 0 * Xv 1 * Xv 2 -
   0.3333333333333333 * Xv 0 * Xv 1 * Xv 2) + 4.960783708246107 * Co 97 * ((Xv 3)**3 * Xv 1 * Xv 2 - 0.6 * Xv 3 *
   Xv 1 * Xv 2) + 2.515576474687264 * Co 47 * ((Xv 3)**2 * Xv 1 * Xv 2 - 0.3333333333333333 * Xv 1 * Xv 2) +
   4.960783708246107 * Co 91 * (Xv 3 * (Xv 0)**3 * Xv 2 - 0.6 * Xv 3 * Xv 0 * Xv 2) + 2.8641098093474 * Co 56 *
   ((Xv 0)**3 * Xv 2 - 0.6 * Xv 0 * Xv 2) + 2.515576474687264 * Co 41 * (Xv 3 * (Xv 0)**2 * Xv 2 -
   0.3333333333333333 * Xv 3 * Xv 2) + 1.452368754827781 * Co 21 * ((Xv 0)**2 * Xv 2 - 0.3333333333333333 * Xv 2)
   + 4.960783708246107 * Co 96 * ((Xv 3)**3 * Xv 0 * Xv 2 - 0.6 * Xv 3 * Xv 0 * Xv 2) + 2.515576474687264 * Co 46
   * ((Xv 3)**2 * Xv 0 * Xv 2 - 0.3333333333333333 * Xv 0 * Xv 2) + 2.8641098093474 * Co 65 * ((Xv 3)**3 * Xv 2 -
   0.6 * Xv 3 * Xv 2) + 1.452368754827781 * Co 30 * ((Xv 3)**2 * Xv 2 - 0.3333333333333333 * Xv 2) + 2.25 * Co 35
   * Xv 3 * Xv 0 * Xv 1 * Xv 2 + 1.299038105676658 * Co 15 * Xv 0 * Xv 1 * Xv 2 + 1.299038105676658 * Co 18 * Xv
   3 * Xv 1 * Xv 2 + 0.75 * Co 7 * Xv 1 * Xv 2 + 1.299038105676658 * Co 17 * Xv 3 * Xv 0 * Xv 2 + 0.75 * Co 6 *
   Xv 0 * Xv 2 + 0.75 * Co 10 * Xv 3 * Xv 2 + 0.4330127018922193 * Co 3 * Xv 2 + 9.84375 * Co 124 * (Xv 3 * Xv 0
   * (Xv 1)**4 - 0.8571428571428571 * (Xv 3 * Xv 0 * (Xv 1)**2 - 0.3333333333333333 * Xv 3 * Xv 0) - 0.2 * Xv 3 *
   Xv 0) + 5.683291712335378 * Co 99 * (Xv 0 * (Xv 1)**4 - 0.8571428571428571 * (Xv 0 * (Xv 1)**2 -
   0.3333333333333333 * Xv 0) - 0.2 * Xv 0) + 5.683291712335378 * Co 105 * (Xv 3 * (Xv 1)**4 - 0.8571428571428571
   * (Xv 3 * (Xv 1)**2 - 0.3333333333333333 * Xv 3) - 0.2 * Xv 3) + 3.28125 * Co 67 * ((Xv 1)**4 -
   0.8571428571428571 * ((Xv 1)**2 - 0.3333333333333333) - 0.2) + 4.960783708246107 * Co 90 * (Xv 3 * Xv 0 * (Xv
   1)**3 - 0.6 * Xv 3 * Xv 0 * Xv 1) + 2.8641098093474 * Co 55 * (Xv 0 * (Xv 1)**3 - 0.6 * Xv 0 * Xv 1) +
   2.8641098093474 * Co 61 * (Xv 3 * (Xv 1)**3 - 0.6 * Xv 3 * Xv 1) + 1.653594569415369 * Co 32 * ((Xv 1)**3 -
   0.6 * Xv 1) + 4.871392896287466 * Co 81 * 4.871392896287466 * Co 77 * 2.8125 * Co 48 * 2.515576474687264 * Co
   40 * (Xv 3 * Xv 0 * (Xv 1)**2 - 0.3333333333333333 * Xv 3 * Xv 0) + 1.452368754827781 * Co 20 * (Xv 0 * (Xv
   1)**2 - 0.3333333333333333 * Xv 0) + 2.8125 * Co 52 * 1.452368754827781 * Co 26 * (Xv 3 * (Xv 1)**2 -
   0.3333333333333333 * Xv 3) + 0.8385254915624212 * Co 12 * ((Xv 1)**2 - 0.3333333333333333) + 9.84375 * Co 123
   * ((Ng (0.8571428571428571)) * (Xv 3 * (Xv 0)**2 * Xv 1 - 0.3333333333333333 * Xv 3 * Xv 1) + Xv 3 * (Xv 0)**4
   * Xv 1 - 0.2 * Xv 3 * Xv 1) + 4.871392896287466 * Co 80 * 5.683291712335378 * Co 98 * ((Ng
   (0.8571428571428571)) * ((Xv 0)**2 * Xv 1 - 0.3333333333333333 * Xv 1) + (Xv 0)**4 * Xv 1 - 0.2 * Xv 1) +
   9.84375 * Co 129 * ((Ng (0.8571428571428571)) * ((Xv 3)**2 * Xv 0 * Xv 1 - 0.3333333333333333 * Xv 0 * Xv 1) +
   (Xv 3)**4 * Xv 0 * Xv 1 - 0.2 * Xv 0 * Xv 1) + 5.683291712335378 * Co 108 * ((Ng (0.8571428571428571)) * ((Xv
   3)**2 * Xv 1 - 0.3333333333333333 * Xv 1) + (Xv 3)**4 * Xv 1 - 0.2 * Xv 1) + 4.960783708246107 * Co 89 * (Xv 3
   * (Xv 0)**3 * Xv 1 - 0.6 * Xv 3 * Xv 0 * Xv 1) + 2.8641098093474 * Co 54 * ((Xv 0)**3 * Xv 1 - 0.6 * Xv 0 * Xv
   1) + 2.515576474687264 * Co 39 * (Xv 3 * (Xv 0)**2 * Xv 1 - 0.3333333333333333 * Xv 3 * Xv 1) +
   1.452368754827781 * Co 19 * ((Xv 0)**2 * Xv 1 - 0.3333333333333333 * Xv 1) + 4.960783708246107 * Co 95 * ((Xv
   3)**3 * Xv 0 * Xv 1 - 0.6 * Xv 3 * Xv 0 * Xv 1) + 2.515576474687264 * Co 45 * ((Xv 3)**2 * Xv 0 * Xv 1 -
   0.3333333333333333 * Xv 0 * Xv 1) + 2.8641098093474 * Co 64 * ((Xv 3)**3 * Xv 1 - 0.6 * Xv 3 * Xv 1) +
   1.452368754827781 * Co 29 * ((Xv 3)**2 * Xv 1 - 0.3333333333333333 * Xv 1) + 1.299038105676658 * Co 16 * Xv 3
   * Xv 0 * Xv 1 + 0.75 * Co 5 * Xv 0 * Xv 1 + 0.75 * Co 9 * Xv 3 * Xv 1 + 0.4330127018922193 * Co 2 * Xv 1 +
   5.683291712335378 * Co 104 * (Xv 3 * (Xv 0)**4 - 0.8571428571428571 * (Xv 3 * (Xv 0)**2 - 0.3333333333333333 *
   Xv 3) - 0.2 * Xv 3) + 3.28125 * Co 66 * ((Xv 0)**4 - 0.8571428571428571 * ((Xv 0)**2 - 0.3333333333333333) -
   0.2) + 2.8641098093474 * Co 60 * (Xv 3 * (Xv 0)**3 - 0.6 * Xv 3 * Xv 0) + 1.653594569415369 * Co 31 * ((Xv
   0)**3 - 0.6 * Xv 0) + 2.8125 * Co 51 * 1.452368754827781 * Co 25 * (Xv 3 * (Xv 0)**2 - 0.3333333333333333 * Xv
   3) + 0.8385254915624212 * Co 11 * ((Xv 0)**2 - 0.3333333333333333) + 5.683291712335378 * Co 107 * ((Ng
   (0.8571428571428571)) * ((Xv 3)**2 * Xv 0 - 0.3333333333333333 * Xv 0) + (Xv 3)**4 * Xv 0 - 0.2 * Xv 0) +
   2.8641098093474 * Co 63 * ((Xv 3)**3 * Xv 0 - 0.6 * Xv 3 * Xv 0) + 1.452368754827781 * Co 28 * ((Xv 3)**2 * Xv
   0 - 0.3333333333333333 * Xv 0) + 0.75 * Co 8 * Xv 3 * Xv 0 + 0.4330127018922193 * Co 1 * Xv 0 + 3.28125 * Co
   69 * ((Xv 3)**4 - 0.8571428571428571 * ((Xv 3)**2 - 0.3333333333333333) - 0.2) + 1.653594569415369 * Co 34 *
   ((Xv 3)**3 - 0.6 * Xv 3) + 0.8385254915624212 * Co 14 * ((Xv 3)**2 - 0.3333333333333333) + 0.4330127018922193
   * Co 4 * Xv 3 + 0.25 * Co 0)%kexp.

(** expand5d.py 1-35. *)
Definition kt_5d1p : option kexp := Some (
   2.755675960631073 * Co 31 * Xv 3 * Xv 4 * Xv 0 * Xv 1 * Xv 2 + 1.590990257669731 * Co 27 * Xv 4 * Xv 0 * Xv 1
   * Xv 2 + 1.590990257669731 * Co 26 * Xv 3 * Xv 0 * Xv 1 * Xv 2 + 0.9185586535436913 * Co 16 * Xv 0 * Xv 1 * Xv
   2 + 1.590990257669731 * Co 30 * Xv 3 * Xv 4 * Xv 1 * Xv 2 + 0.9185586535436913 * Co 22 * Xv 4 * Xv 1 * Xv 2 +
   0.9185586535436913 * Co 19 * Xv 3 * Xv 1 * Xv 2 + 0.5303300858899105 * Co 8 * Xv 1 * Xv 2 + 1.590990257669731
   * Co 29 * Xv 3 * Xv 4 * Xv 0 * Xv 2 + 0.9185586535436913 * Co 21 * Xv 4 * Xv 0 * Xv 2 + 0.9185586535436913 *
   Co 18 * Xv 3 * Xv 0 * Xv 2 + 0.5303300858899105 * Co 7 * Xv 0 * Xv 2 + 0.9185586535436913 * Co 25 * Xv 3 * Xv
   4 * Xv 2 + 0.5303300858899105 * Co 14 * Xv 4 * Xv 2 + 0.5303300858899105 * Co 11 * Xv 3 * Xv 2 +
   0.3061862178478971 * Co 3 * Xv 2 + 1.590990257669731 * Co 28 * Xv 3 * Xv 4 * Xv 0 * Xv 1 + 0.9185586535436913
   * Co 20 * Xv 4 * Xv 0 * Xv 1 + 0.9185586535436913 * Co 17 * Xv 3 * Xv 0 * Xv 1 + 0.5303300858899105 * Co 6 *
   Xv 0 * Xv 1 + 0.9185586535436913 * Co 24 * Xv 3 * Xv 4 * Xv 1 + 0.5303300858899105 * Co 13 * Xv 4 * Xv 1 +
   0.5303300858899105 * Co 10 * Xv 3 * Xv 1 + 0.3061862178478971 * Co 2 * Xv 1 + 0.9185586535436913 * Co 23 * Xv
   3 * Xv 4 * Xv 0 + 0.5303300858899105 * Co 12 * Xv 4 * Xv 0 + 0.5303300858899105 * Co 9 * Xv 3 * Xv 0 +
   0.3061862178478971 * Co 1 * Xv 0 + 0.5303300858899105 * Co 15 * Xv 3 * Xv 4 + 0.3061862178478971 * Co 5 * Xv 4
   + 0.3061862178478971 * Co 4 * Xv 3 + 0.1767766952966368 * Co 0)%kexp.

(** expand5d.py 41-211. *)
Definition kt_5d2p : option kexp := Some (
   5.336343551534138 * Co 109 * (Xo (Xv 3 * Xv 4 * Xv 0 * Xv 1 * Xv 2) (2 - 0.3333333333333333 * Xv 3 * Xv 4 * Xv
   0 * Xv 1)) + 3.080939385966558 * Co 93 * (Xo (Xv 4 * Xv 0 * Xv 1 * Xv 2) (2 - 0.3333333333333333 * Xv 4 * Xv 0
   * Xv 1)) + 3.080939385966558 * Co 89 * (Xo (Xv 3 * Xv 0 * Xv 1 * Xv 2) (2 - 0.3333333333333333 * Xv 3 * Xv 0 *
   Xv 1)) + 1.778781183844713 * Co 58 * (Xo (Xv 0 * Xv 1 * Xv 2) (2 - 0.3333333333333333 * Xv 0 * Xv 1)) +
   3.080939385966558 * Co 99 * (Xo (Xv 3 * Xv 4 * Xv 1 * Xv 2) (2 - 0.3333333333333333 * Xv 3 * Xv 4 * Xv 1)) +
   1.778781183844713 * Co 73 * (Xo (Xv 4 * Xv 1 * Xv 2) (2 - 0.3333333333333333 * Xv 4 * Xv 1)) +
   1.778781183844713 * Co 64 * (Xo (Xv 3 * Xv 1 * Xv 2) (2 - 0.3333333333333333 * Xv 3 * Xv 1)) +
   1.026979795322186 * Co 36 * (Xo (Xv 1 * Xv 2) (2 - 0.3333333333333333 * Xv 1)) + 3.080939385966558 * Co 98 *
   (Xo (Xv 3 * Xv 4 * Xv 0 * Xv 2) (2 - 0.3333333333333333 * Xv 3 * Xv 4 * Xv 0)) + 1.778781183844713 * Co 72 *
   (Xo (Xv 4 * Xv 0 * Xv 2) (2 - 0.3333333333333333 * Xv 4 * Xv 0)) + 1.778781183844713 * Co 63 * (Xo (Xv 3 * Xv
   0 * Xv 2) (2 - 0.3333333333333333 * Xv 3 * Xv 0)) + 1.026979795322186 * Co 35 * (Xo (Xv 0 * Xv 2) (2 -
   0.3333333333333333 * Xv 0)) + 1.778781183844713 * Co 76 * (Xo (Xv 3 * Xv 4 * Xv 2) (2 - 0.3333333333333333 *
   Xv 3 * Xv 4)) + 1.026979795322186 * Co 45 * (Xo (Xv 4 * Xv 2) (2 - 0.3333333333333333 * Xv 4)) +
   1.026979795322186 * Co 39 * (Xo (Xv 3 * Xv 2) (2 - 0.3333333333333333 * Xv 3)) + 0.592927061281571 * Co 18 *
   (Xo (Xv 2) (2 - 0.3333333333333333)) + 5.336343551534138 * Co 108 * (Xo (Xv 3 * Xv 4 * Xv 0 * Xv 1) (2 * Xv 2
   - 0.3333333333333333 * Xv 3 * Xv 4 * Xv 0 * Xv 2)) + 3.080939385966558 * Co 92 * (Xo (Xv 4 * Xv 0 * Xv 1) (2 *
   Xv 2 - 0.3333333333333333 * Xv 4 * Xv 0 * Xv 2)) + 3.080939385966558 * Co 88 * (Xo (Xv 3 * Xv 0 * Xv 1) (2 *
   Xv 2 - 0.3333333333333333 * Xv 3 * Xv 0 * Xv 2)) + 1.778781183844713 * Co 57 * (Xo (Xv 0 * Xv 1) (2 * Xv 2 -
   0.3333333333333333 * Xv 0 * Xv 2)) + 3.080939385966558 * Co 97 * (Xo (Xv 3 * Xv 4 * Xv 1) (2 * Xv 2 -
   0.3333333333333333 * Xv 3 * Xv 4 * Xv 2)) + 1.778781183844713 * Co 71 * (Xo (Xv 4 * Xv 1) (2 * Xv 2 -
   0.3333333333333333 * Xv 4 * Xv 2)) + 1.778781183844713 * Co 62 * (Xo (Xv 3 * Xv 1) (2 * Xv 2 -
   0.3333333333333333 * Xv 3 * Xv 2)) + 1.026979795322186 * Co 34 * (Xo (Xv 1) (2 * Xv 2 - 0.3333333333333333 *
   Xv 2)) + 5.336343551534138 * Co 107 * (Xo (Xv 3 * Xv 4 * Xv 0) (2 * Xv 1 * Xv 2 - 0.3333333333333333 * Xv 3 *
   Xv 4 * Xv 1 * Xv 2)) + 3.080939385966558 * Co 91 * (Xo (Xv 4 * Xv 0) (2 * Xv 1 * Xv 2 - 0.3333333333333333 *
   Xv 4 * Xv 1 * Xv 2)) + 3.080939385966558 * Co 87 * (Xo (Xv 3 * Xv 0) (2 * Xv 1 * Xv 2 - 0.3333333333333333 *
   Xv 3 * Xv 1 * Xv 2)) + 1.778781183844713 * Co 56 * (Xo (Xv 0) (2 * Xv 1 * Xv 2 - 0.3333333333333333 * Xv 1 *
   Xv 2)) + 5.336343551534138 * Co 111 * (Xo (Xv 3 * Xv 4) (2 * Xv 0 * Xv 1 * Xv 2 - 0.3333333333333333 * Xv 3 *
   Xv 0 * Xv 1 * Xv 2)) + 3.080939385966558 * Co 103 * (Xo (Xv 4) (2 * Xv 0 * Xv 1 * Xv 2 - 0.3333333333333333 *
   Xv 0 * Xv 1 * Xv 2)) + 5.336343551534138 * Co 110 * (Xo (Xv 3) (2 * Xv 4 * Xv 0 * Xv 1 * Xv 2 -
   0.3333333333333333 * Xv 4 * Xv 0 * Xv 1 * Xv 2)) + 3.080939385966558 * Co 90 * (Xo (Xv 3) (2 * Xv 0 * Xv 1 *
   Xv 2 - 0.3333333333333333 * Xv 0 * Xv 1 * Xv 2)) + 3.080939385966558 * Co 106 * (Xo (Xv 3 * Xv 4) (2 * Xv 1 *
   Xv 2 - 0.3333333333333333 * Xv 3 * Xv 1 * Xv 2)) + 1.778781183844713 * Co 82 * (Xo (Xv 4) (2 * Xv 1 * Xv 2 -
   0.3333333333333333 * Xv 1 * Xv 2)) + 3.080939385966558 * Co 102 * (Xo (Xv 3) (2 * Xv 4 * Xv 1 * Xv 2 -
   0.3333333333333333 * Xv 4 * Xv 1 * Xv 2)) + 1.778781183844713 * Co 67 * (Xo (Xv 3) (2 * Xv 1 * Xv 2 -
   0.3333333333333333 * Xv 1 * Xv 2)) + 3.080939385966558 * Co 96 * (Xo (Xv 3 * Xv 4 * Xv 0) (2 * Xv 2 -
   0.3333333333333333 * Xv 3 * Xv 4 * Xv 2)) + 1.778781183844713 * Co 70 * (Xo (Xv 4 * Xv 0) (2 * Xv 2 -
   0.3333333333333333 * Xv 4 * Xv 2)) + 1.778781183844713 * Co 61 * (Xo (Xv 3 * Xv 0) (2 * Xv 2 -
   0.3333333333333333 * Xv 3 * Xv 2)) + 1.026979795322186 * Co 33 * (Xo (Xv 0) (2 * Xv 2 - 0.3333333333333333 *
   Xv 2)) + 3.080939385966558 * Co 105 * (Xo (Xv 3 * Xv 4) (2 * Xv 0 * Xv 2 - 0.3333333333333333 * Xv 3 * Xv 0 *
   Xv 2)) + 1.778781183844713 * Co 81 * (Xo (Xv 4) (2 * Xv 0 * Xv 2 - 0.3333333333333333 * Xv 0 * Xv 2)) +
   3.080939385966558 * Co 101 * (Xo (Xv 3) (2 * Xv 4 * Xv 0 * Xv 2 - 0.3333333333333333 * Xv 4 * Xv 0 * Xv 2)) +
   1.778781183844713 * Co 66 * (Xo (Xv 3) (2 * Xv 0 * Xv 2 - 0.3333333333333333 * Xv 0 * Xv 2)) +
   1.778781183844713 * Co 85 * (Xo (Xv 3 * Xv 4) (2 * Xv 2 - 0.3333333333333333 * Xv 3 * Xv 2)) +
   1.026979795322186 * Co 49 * (Xo (Xv 4) (2 * Xv 2 - 0.3333333333333333 * Xv 2)) + 1.778781183844713 * Co 79 *
   (Xo (Xv 3) (2 * Xv 4 * Xv 2 - 0.3333333333333333 * Xv 4 * Xv 2)) + 1.026979795322186 * Co 42 * (Xo (Xv 3) (2 *
   Xv 2 - 0.3333333333333333 * Xv 2)) + 2.755675960631073 * Co 86 * Xv 3 * Xv 4 * Xv 0 * Xv 1 * Xv 2 +
   1.590990257669731 * Co 52 * Xv 4 * Xv 0 * Xv 1 * Xv 2 + 1.590990257669731 * Co 51 * Xv 3 * Xv 0 * Xv 1 * Xv 2
   + 0.9185586535436913 * Co 21 * Xv 0 * Xv 1 * Xv 2 + 1.590990257669731 * Co 55 * Xv 3 * Xv 4 * Xv 1 * Xv 2 +
   0.9185586535436913 * Co 27 * Xv 4 * Xv 1 * Xv 2 + 0.9185586535436913 * Co 24 * Xv 3 * Xv 1 * Xv 2 +
   0.5303300858899105 * Co 8 * Xv 1 * Xv 2 + 1.590990257669731 * Co 54 * Xv 3 * Xv 4 * Xv 0 * Xv 2 +
   0.9185586535436913 * Co 26 * Xv 4 * Xv 0 * Xv 2 + 0.9185586535436913 * Co 23 * Xv 3 * Xv 0 * Xv 2 +
   0.5303300858899105 * Co 7 * Xv 0 * Xv 2 + 0.9185586535436913 * Co 30 * Xv 3 * Xv 4 * Xv 2 + 0.5303300858899105
   * Co 14 * Xv 4 * Xv 2 + 0.5303300858899105 * Co 11 * Xv 3 * Xv 2 + 0.3061862178478971 * Co 3 * Xv 2 +
   3.080939385966558 * Co 95 * (Xo (Xv 3 * Xv 4 * Xv 0 * Xv 1) (2 - 0.3333333333333333 * Xv 3 * Xv 4 * Xv 0)) +
   1.778781183844713 * Co 69 * (Xo (Xv 4 * Xv 0 * Xv 1) (2 - 0.3333333333333333 * Xv 4 * Xv 0)) +
   1.778781183844713 * Co 60 * (Xo (Xv 3 * Xv 0 * Xv 1) (2 - 0.3333333333333333 * Xv 3 * Xv 0)) +
   1.026979795322186 * Co 32 * (Xo (Xv 0 * Xv 1) (2 - 0.3333333333333333 * Xv 0)) + 1.778781183844713 * Co 75 *
   (Xo (Xv 3 * Xv 4 * Xv 1) (2 - 0.3333333333333333 * Xv 3 * Xv 4)) + 1.026979795322186 * Co 44 * (Xo (Xv 4 * Xv
   1) (2 - 0.3333333333333333 * Xv 4)) + 1.026979795322186 * Co 38 * (Xo (Xv 3 * Xv 1) (2 - 0.3333333333333333 *
   Xv 3)) + 0.592927061281571 * Co 17 * (Xo (Xv 1) (2 - 0.3333333333333333)) + 3.080939385966558 * Co 94 * (Xo
   (Xv 3 * Xv 4 * Xv 0) (2 * Xv 1 - 0.3333333333333333 * Xv 3 * Xv 4 * Xv 1)) + 1.778781183844713 * Co 68 * (Xo
   (Xv 4 * Xv 0) (2 * Xv 1 - 0.3333333333333333 * Xv 4 * Xv 1)) + 1.778781183844713 * Co 59 * (Xo (Xv 3 * Xv 0)
   (2 * Xv 1 - 0.3333333333333333 * Xv 3 * Xv 1)) + 1.026979795322186 * Co 31 * (Xo (Xv 0) (2 * Xv 1 -
   0.3333333333333333 * Xv 1)) + 3.080939385966558 * Co 104 * (Xo (Xv 3 * Xv 4) (2 * Xv 0 * Xv 1 -
   0.3333333333333333 * Xv 3 * Xv 0 * Xv 1)) + 1.778781183844713 * Co 80 * (Xo (Xv 4) (2 * Xv 0 * Xv 1 -
   0.3333333333333333 * Xv 0 * Xv 1)) + 3.080939385966558 * Co 100 * (Xo (Xv 3) (2 * Xv 4 * Xv 0 * Xv 1 -
   0.3333333333333333 * Xv 4 * Xv 0 * Xv 1)) + 1.778781183844713 * Co 65 * (Xo (Xv 3) (2 * Xv 0 * Xv 1 -
   0.3333333333333333 * Xv 0 * Xv 1)) + 1.778781183844713 * Co 84 * (Xo (Xv 3 * Xv 4) (2 * Xv 1 -
   0.3333333333333333 * Xv 3 * Xv 1)) + 1.026979795322186 * Co 48 * (Xo (Xv 4) (2 * Xv 1 - 0.3333333333333333 *
   Xv 1)) + 1.778781183844713 * Co 78 * (Xo (Xv 3) (2 * Xv 4 * Xv 1 - 0.3333333333333333 * Xv 4 * Xv 1)) +
   1.026979795322186 * Co 41 * (Xo (Xv 3) (2 * Xv 1 - 0.3333333333333333 * Xv 1)) + 1.590990257669731 * Co 53 *
   Xv 3 * Xv 4 * Xv 0 * Xv 1 + 0.9185586535436913 * Co 25 * Xv 4 * Xv 0 * Xv 1 + 0.9185586535436913 * Co 22 * Xv
   3 * Xv 0 * Xv 1 + 0.5303300858899105 * Co 6 * Xv 0 * Xv 1 + 0.9185586535436913 * Co 29 * Xv 3 * Xv 4 * Xv 1 +
   0.5303300858899105 * Co 13 * Xv 4 * Xv 1 + 0.5303300858899105 * Co 10 * Xv 3 * Xv 1 + 0.3061862178478971 * Co
   2 * Xv 1 + 1.778781183844713 * Co 74 * (Xo (Xv 3 * Xv 4 * Xv 0) (2 - 0.3333333333333333 * Xv 3 * Xv 4)) +
   1.026979795322186 * Co 43 * (Xo (Xv 4 * Xv 0) (2 - 0.3333333333333333 * Xv 4)) + 1.026979795322186 * Co 37 *
   (Xo (Xv 3 * Xv 0) (2 - 0.3333333333333333 * Xv 3)) + 0.592927061281571 * Co 16 * (Xo (Xv 0) (2 -
   0.3333333333333333)) + 1.778781183844713 * Co 83 * (Xo (Xv 3 * Xv 4) (2 * Xv 0 - 0.3333333333333333 * Xv 3 *
   Xv 0)) + 1.026979795322186 * Co 47 * (Xo (Xv 4) (2 * Xv 0 - 0.3333333333333333 * Xv 0)) + 1.778781183844713 *
   Co 77 * (Xo (Xv 3) (2 * Xv 4 * Xv 0 - 0.3333333333333333 * Xv 4 * Xv 0)) + 1.026979795322186 * Co 40 * (Xo (Xv
   3) (2 * Xv 0 - 0.3333333333333333 * Xv 0)) + 0.9185586535436913 * Co 28 * Xv 3 * Xv 4 * Xv 0 +
   0.5303300858899105 * Co 12 * Xv 4 * Xv 0 + 0.5303300858899105 * Co 9 * Xv 3 * Xv 0 + 0.3061862178478971 * Co 1
   * Xv 0 + 1.026979795322186 * Co 50 * (Xo (Xv 3 * Xv 4) (2 - 0.3333333333333333 * Xv 3)) + 0.592927061281571 *
   Co 20 * (Xo (Xv 4) (2 - 0.3333333333333333)) + 1.026979795322186 * Co 46 * (Xo (Xv 3) (2 * Xv 4 -
   0.3333333333333333 * Xv 4)) + 0.5303300858899105 * Co 15 * Xv 3 * Xv 4 + 0.3061862178478971 * Co 5 * Xv 4 +
   0.592927061281571 * Co 19 * (Xo (Xv 3) (2 - 0.3333333333333333)) + 0.3061862178478971 * Co 4 * Xv 3 +
   0.1767766952966368 * Co 0)%kexp.

(** expand5d.py 217-477. *)
Definition kt_5d3p : option kexp := Some (
   10.52341140030171 * Co 189 * (Xo (Xv 3 * Xv 4 * Xv 0 * Xv 1 * Xv 2) (3 - 0.6 * Xv 3 * Xv 4 * Xv 0 * Xv 1 * Xv
   2)) + 6.075694404757366 * Co 173 * (Xo (Xv 4 * Xv 0 * Xv 1 * Xv 2) (3 - 0.6 * Xv 4 * Xv 0 * Xv 1 * Xv 2)) +
   6.075694404757366 * Co 169 * (Xo (Xv 3 * Xv 0 * Xv 1 * Xv 2) (3 - 0.6 * Xv 3 * Xv 0 * Xv 1 * Xv 2)) +
   3.507803800100568 * Co 134 * (Xo (Xv 0 * Xv 1 * Xv 2) (3 - 0.6 * Xv 0 * Xv 1 * Xv 2)) + 6.075694404757366 * Co
   179 * (Xo (Xv 3 * Xv 4 * Xv 1 * Xv 2) (3 - 0.6 * Xv 3 * Xv 4 * Xv 1 * Xv 2)) + 3.507803800100568 * Co 149 *
   (Xo (Xv 4 * Xv 1 * Xv 2) (3 - 0.6 * Xv 4 * Xv 1 * Xv 2)) + 3.507803800100568 * Co 140 * (Xo (Xv 3 * Xv 1 * Xv
   2) (3 - 0.6 * Xv 3 * Xv 1 * Xv 2)) + 2.025231468252455 * Co 96 * (Xo (Xv 1 * Xv 2) (3 - 0.6 * Xv 1 * Xv 2)) +
   6.075694404757366 * Co 178 * (Xo (Xv 3 * Xv 4 * Xv 0 * Xv 2) (3 - 0.6 * Xv 3 * Xv 4 * Xv 0 * Xv 2)) +
   3.507803800100568 * Co 148 * (Xo (Xv 4 * Xv 0 * Xv 2) (3 - 0.6 * Xv 4 * Xv 0 * Xv 2)) + 3.507803800100568 * Co
   139 * (Xo (Xv 3 * Xv 0 * Xv 2) (3 - 0.6 * Xv 3 * Xv 0 * Xv 2)) + 2.025231468252455 * Co 95 * (Xo (Xv 0 * Xv 2)
   (3 - 0.6 * Xv 0 * Xv 2)) + 3.507803800100568 * Co 152 * (Xo (Xv 3 * Xv 4 * Xv 2) (3 - 0.6 * Xv 3 * Xv 4 * Xv
   2)) + 2.025231468252455 * Co 105 * (Xo (Xv 4 * Xv 2) (3 - 0.6 * Xv 4 * Xv 2)) + 2.025231468252455 * Co 99 *
   (Xo (Xv 3 * Xv 2) (3 - 0.6 * Xv 3 * Xv 2)) + 1.169267933366856 * Co 53 * (Xo (Xv 2) (3 - 0.6 * Xv 2)) +
   5.336343551534138 * Co 164 * (Xo (Xv 3 * Xv 4 * Xv 0 * Xv 1 * Xv 2) (2 - 0.3333333333333333 * Xv 3 * Xv 4 * Xv
   0 * Xv 1)) + 3.080939385966558 * Co 118 * (Xo (Xv 4 * Xv 0 * Xv 1 * Xv 2) (2 - 0.3333333333333333 * Xv 4 * Xv
   0 * Xv 1)) + 3.080939385966558 * Co 114 * (Xo (Xv 3 * Xv 0 * Xv 1 * Xv 2) (2 - 0.3333333333333333 * Xv 3 * Xv
   0 * Xv 1)) + 1.778781183844713 * Co 63 * (Xo (Xv 0 * Xv 1 * Xv 2) (2 - 0.3333333333333333 * Xv 0 * Xv 1)) +
   3.080939385966558 * Co 124 * (Xo (Xv 3 * Xv 4 * Xv 1 * Xv 2) (2 - 0.3333333333333333 * Xv 3 * Xv 4 * Xv 1)) +
   1.778781183844713 * Co 78 * (Xo (Xv 4 * Xv 1 * Xv 2) (2 - 0.3333333333333333 * Xv 4 * Xv 1)) +
   1.778781183844713 * Co 69 * (Xo (Xv 3 * Xv 1 * Xv 2) (2 - 0.3333333333333333 * Xv 3 * Xv 1)) +
   1.026979795322186 * Co 36 * (Xo (Xv 1 * Xv 2) (2 - 0.3333333333333333 * Xv 1)) + 3.080939385966558 * Co 123 *
   (Xo (Xv 3 * Xv 4 * Xv 0 * Xv 2) (2 - 0.3333333333333333 * Xv 3 * Xv 4 * Xv 0)) + 1.778781183844713 * Co 77 *
   (Xo (Xv 4 * Xv 0 * Xv 2) (2 - 0.3333333333333333 * Xv 4 * Xv 0)) + 1.778781183844713 * Co 68 * (Xo (Xv 3 * Xv
   0 * Xv 2) (2 - 0.3333333333333333 * Xv 3 * Xv 0)) + 1.026979795322186 * Co 35 * (Xo (Xv 0 * Xv 2) (2 -
   0.3333333333333333 * Xv 0)) + 1.778781183844713 * Co 81 * (Xo (Xv 3 * Xv 4 * Xv 2) (2 - 0.3333333333333333 *
   Xv 3 * Xv 4)) + 1.026979795322186 * Co 45 * (Xo (Xv 4 * Xv 2) (2 - 0.3333333333333333 * Xv 4)) +
   1.026979795322186 * Co 39 * (Xo (Xv 3 * Xv 2) (2 - 0.3333333333333333 * Xv 3)) + 0.592927061281571 * Co 18 *
   (Xo (Xv 2) (2 - 0.3333333333333333)) + 10.52341140030171 * Co 188 * (Xo (Xv 3 * Xv 4 * Xv 0 * Xv 1) (3 * Xv 2
   - 0.6 * Xv 3 * Xv 4 * Xv 0 * Xv 1 * Xv 2)) + 6.075694404757366 * Co 172 * (Xo (Xv 4 * Xv 0 * Xv 1) (3 * Xv 2 -
   0.6 * Xv 4 * Xv 0 * Xv 1 * Xv 2)) + 6.075694404757366 * Co 168 * (Xo (Xv 3 * Xv 0 * Xv 1) (3 * Xv 2 - 0.6 * Xv
   3 * Xv 0 * Xv 1 * Xv 2)) + 3.507803800100568 * Co 133 * (Xo (Xv 0 * Xv 1) (3 * Xv 2 - 0.6 * Xv 0 * Xv 1 * Xv
   2)) + 6.075694404757366 * Co 177 * (Xo (Xv 3 * Xv 4 * Xv 1) (3 * Xv 2 - 0.6 * Xv 3 * Xv 4 * Xv 1 * Xv 2)) +
   3.507803800100568 * Co 147 * (Xo (Xv 4 * Xv 1) (3 * Xv 2 - 0.6 * Xv 4 * Xv 1 * Xv 2)) + 3.507803800100568 * Co
   138 * (Xo (Xv 3 * Xv 1) (3 * Xv 2 - 0.6 * Xv 3 * Xv 1 * Xv 2)) + 2.025231468252455 * Co 94 * (Xo (Xv 1) (3 *
   Xv 2 - 0.6 * Xv 1 * Xv 2)) + 5.336343551534138 * Co 163 * (Xo (Xv 3 * Xv 4 * Xv 0 * Xv 1) (2 * Xv 2 -
   0.3333333333333333 * Xv 3 * Xv 4 * Xv 0 * Xv 2)) + 3.080939385966558 * Co 117 * (Xo (Xv 4 * Xv 0 * Xv 1) (2 *
   Xv 2 - 0.3333333333333333 * Xv 4 * Xv 0 * Xv 2)) + 3.080939385966558 * Co 113 * (Xo (Xv 3 * Xv 0 * Xv 1) (2 *
   Xv 2 - 0.3333333333333333 * Xv 3 * Xv 0 * Xv 2)) + 1.778781183844713 * Co 62 * (Xo (Xv 0 * Xv 1) (2 * Xv 2 -
   0.3333333333333333 * Xv 0 * Xv 2)) + 3.080939385966558 * Co 122 * (Xo (Xv 3 * Xv 4 * Xv 1) (2 * Xv 2 -
   0.3333333333333333 * Xv 3 * Xv 4 * Xv 2)) + 1.778781183844713 * Co 76 * (Xo (Xv 4 * Xv 1) (2 * Xv 2 -
   0.3333333333333333 * Xv 4 * Xv 2)) + 1.778781183844713 * Co 67 * (Xo (Xv 3 * Xv 1) (2 * Xv 2 -
   0.3333333333333333 * Xv 3 * Xv 2)) + 1.026979795322186 * Co 34 * (Xo (Xv 1) (2 * Xv 2 - 0.3333333333333333 *
   Xv 2)) + 10.52341140030171 * Co 187 * (Xo (Xv 3 * Xv 4 * Xv 0) (3 * Xv 1 * Xv 2 - 0.6 * Xv 3 * Xv 4 * Xv 0 *
   Xv 1 * Xv 2)) + 6.075694404757366 * Co 171 * (Xo (Xv 4 * Xv 0) (3 * Xv 1 * Xv 2 - 0.6 * Xv 4 * Xv 0 * Xv 1 *
   Xv 2)) + 6.075694404757366 * Co 167 * (Xo (Xv 3 * Xv 0) (3 * Xv 1 * Xv 2 - 0.6 * Xv 3 * Xv 0 * Xv 1 * Xv 2)) +
   3.507803800100568 * Co 132 * (Xo (Xv 0) (3 * Xv 1 * Xv 2 - 0.6 * Xv 0 * Xv 1 * Xv 2)) + 5.336343551534138 * Co
   162 * (Xo (Xv 3 * Xv 4 * Xv 0) (2 * Xv 1 * Xv 2 - 0.3333333333333333 * Xv 3 * Xv 4 * Xv 1 * Xv 2)) +
   3.080939385966558 * Co 116 * (Xo (Xv 4 * Xv 0) (2 * Xv 1 * Xv 2 - 0.3333333333333333 * Xv 4 * Xv 1 * Xv 2)) +
   3.080939385966558 * Co 112 * (Xo (Xv 3 * Xv 0) (2 * Xv 1 * Xv 2 - 0.3333333333333333 * Xv 3 * Xv 1 * Xv 2)) +
   1.778781183844713 * Co 61 * (Xo (Xv 0) (2 * Xv 1 * Xv 2 - 0.3333333333333333 * Xv 1 * Xv 2)) +
   10.52341140030171 * Co 191 * (Xo (Xv 3 * Xv 4) (3 * Xv 0 * Xv 1 * Xv 2 - 0.6 * Xv 3 * Xv 4 * Xv 0 * Xv 1 * Xv
   2)) + 6.075694404757366 * Co 183 * (Xo (Xv 4) (3 * Xv 0 * Xv 1 * Xv 2 - 0.6 * Xv 4 * Xv 0 * Xv 1 * Xv 2)) +
   5.336343551534138 * Co 166 * (Xo (Xv 3 * Xv 4) (2 * Xv 0 * Xv 1 * Xv 2 - 0.3333333333333333 * Xv 3 * Xv 0 * Xv
   1 * Xv 2)) + 3.080939385966558 * Co 128 * (Xo (Xv 4) (2 * Xv 0 * Xv 1 * Xv 2 - 0.3333333333333333 * Xv 0 * Xv
   1 * Xv 2)) + 10.52341140030171 * Co 190 * (Xo (Xv 3) (3 * Xv 4 * Xv 0 * Xv 1 * Xv 2 - 0.6 * Xv 3 * Xv 4 * Xv 0
   * Xv 1 * Xv 2)) + 5.336343551534138 * Co 165 * (Xo (Xv 3) (2 * Xv 4 * Xv 0 * Xv 1 * Xv 2 - 0.3333333333333333
   * Xv 4 * Xv 0 * Xv 1 * Xv 2)) + 6.075694404757366 * Co 170 * (Xo (Xv 3) (3 * Xv 0 * Xv 1 * Xv 2 - 0.6 * Xv 3 *
   Xv 0 * Xv 1 * Xv 2)) + 3.080939385966558 * Co 115 * (Xo (Xv 3) (2 * Xv 0 * Xv 1 * Xv 2 - 0.3333333333333333 *
   Xv 0 * Xv 1 * Xv 2)) + 6.075694404757366 * Co 186 * (Xo (Xv 3 * Xv 4) (3 * Xv 1 * Xv 2 - 0.6 * Xv 3 * Xv 4 *
   Xv 1 * Xv 2)) + 3.507803800100568 * Co 158 * (Xo (Xv 4) (3 * Xv 1 * Xv 2 - 0.6 * Xv 4 * Xv 1 * Xv 2)) +
   3.080939385966558 * Co 131 * (Xo (Xv 3 * Xv 4) (2 * Xv 1 * Xv 2 - 0.3333333333333333 * Xv 3 * Xv 1 * Xv 2)) +
   1.778781183844713 * Co 87 * (Xo (Xv 4) (2 * Xv 1 * Xv 2 - 0.3333333333333333 * Xv 1 * Xv 2)) +
   6.075694404757366 * Co 182 * (Xo (Xv 3) (3 * Xv 4 * Xv 1 * Xv 2 - 0.6 * Xv 3 * Xv 4 * Xv 1 * Xv 2)) +
   3.080939385966558 * Co 127 * (Xo (Xv 3) (2 * Xv 4 * Xv 1 * Xv 2 - 0.3333333333333333 * Xv 4 * Xv 1 * Xv 2)) +
   3.507803800100568 * Co 143 * (Xo (Xv 3) (3 * Xv 1 * Xv 2 - 0.6 * Xv 3 * Xv 1 * Xv 2)) + 1.778781183844713 * Co
   72 * (Xo (Xv 3) (2 * Xv 1 * Xv 2 - 0.3333333333333333 * Xv 1 * Xv 2)) + 6.075694404757366 * Co 176 * (Xo (Xv 3
   * Xv 4 * Xv 0) (3 * Xv 2 - 0.6 * Xv 3 * Xv 4 * Xv 0 * Xv 2)) + 3.507803800100568 * Co 146 * (Xo (Xv 4 * Xv 0)
   (3 * Xv 2 - 0.6 * Xv 4 * Xv 0 * Xv 2)) + 3.507803800100568 * Co 137 * (Xo (Xv 3 * Xv 0) (3 * Xv 2 - 0.6 * Xv 3
   * Xv 0 * Xv 2)) + 2.025231468252455 * Co 93 * (Xo (Xv 0) (3 * Xv 2 - 0.6 * Xv 0 * Xv 2)) + 3.080939385966558 *
   Co 121 * (Xo (Xv 3 * Xv 4 * Xv 0) (2 * Xv 2 - 0.3333333333333333 * Xv 3 * Xv 4 * Xv 2)) + 1.778781183844713 *
   Co 75 * (Xo (Xv 4 * Xv 0) (2 * Xv 2 - 0.3333333333333333 * Xv 4 * Xv 2)) + 1.778781183844713 * Co 66 * (Xo (Xv
   3 * Xv 0) (2 * Xv 2 - 0.3333333333333333 * Xv 3 * Xv 2)) + 1.026979795322186 * Co 33 * (Xo (Xv 0) (2 * Xv 2 -
   0.3333333333333333 * Xv 2)) + 6.075694404757366 * Co 185 * (Xo (Xv 3 * Xv 4) (3 * Xv 0 * Xv 2 - 0.6 * Xv 3 *
   Xv 4 * Xv 0 * Xv 2)) + 3.507803800100568 * Co 157 * (Xo (Xv 4) (3 * Xv 0 * Xv 2 - 0.6 * Xv 4 * Xv 0 * Xv 2)) +
   3.080939385966558 * Co 130 * (Xo (Xv 3 * Xv 4) (2 * Xv 0 * Xv 2 - 0.3333333333333333 * Xv 3 * Xv 0 * Xv 2)) +
   1.778781183844713 * Co 86 * (Xo (Xv 4) (2 * Xv 0 * Xv 2 - 0.3333333333333333 * Xv 0 * Xv 2)) +
   6.075694404757366 * Co 181 * (Xo (Xv 3) (3 * Xv 4 * Xv 0 * Xv 2 - 0.6 * Xv 3 * Xv 4 * Xv 0 * Xv 2)) +
   3.080939385966558 * Co 126 * (Xo (Xv 3) (2 * Xv 4 * Xv 0 * Xv 2 - 0.3333333333333333 * Xv 4 * Xv 0 * Xv 2)) +
   3.507803800100568 * Co 142 * (Xo (Xv 3) (3 * Xv 0 * Xv 2 - 0.6 * Xv 3 * Xv 0 * Xv 2)) + 1.778781183844713 * Co
   71 * (Xo (Xv 3) (2 * Xv 0 * Xv 2 - 0.3333333333333333 * Xv 0 * Xv 2)) + 3.507803800100568 * Co 161 * (Xo (Xv 3
   * Xv 4) (3 * Xv 2 - 0.6 * Xv 3 * Xv 4 * Xv 2)) + 2.025231468252455 * Co 109 * (Xo (Xv 4) (3 * Xv 2 - 0.6 * Xv
   4 * Xv 2)) + 1.778781183844713 * Co 90 * (Xo (Xv 3 * Xv 4) (2 * Xv 2 - 0.3333333333333333 * Xv 3 * Xv 2)) +
   1.026979795322186 * Co 49 * (Xo (Xv 4) (2 * Xv 2 - 0.3333333333333333 * Xv 2)) + 3.507803800100568 * Co 155 *
   (Xo (Xv 3) (3 * Xv 4 * Xv 2 - 0.6 * Xv 3 * Xv 4 * Xv 2)) + 1.778781183844713 * Co 84 * (Xo (Xv 3) (2 * Xv 4 *
   Xv 2 - 0.3333333333333333 * Xv 4 * Xv 2)) + 2.025231468252455 * Co 102 * (Xo (Xv 3) (3 * Xv 2 - 0.6 * Xv 3 *
   Xv 2)) + 1.026979795322186 * Co 42 * (Xo (Xv 3) (2 * Xv 2 - 0.3333333333333333 * Xv 2)) + 2.755675960631073 *
   Co 111 * Xv 3 * Xv 4 * Xv 0 * Xv 1 * Xv 2 + 1.590990257669731 * Co 57 * Xv 4 * Xv 0 * Xv 1 * Xv 2 +
   1.590990257669731 * Co 56 * Xv 3 * Xv 0 * Xv 1 * Xv 2 + 0.9185586535436913 * Co 21 * Xv 0 * Xv 1 * Xv 2 +
   1.590990257669731 * Co 60 * Xv 3 * Xv 4 * Xv 1 * Xv 2 + 0.9185586535436913 * Co 27 * Xv 4 * Xv 1 * Xv 2 +
   0.9185586535436913 * Co 24 * Xv 3 * Xv 1 * Xv 2 + 0.5303300858899105 * Co 8 * Xv 1 * Xv 2 + 1.590990257669731
   * Co 59 * Xv 3 * Xv 4 * Xv 0 * Xv 2 + 0.9185586535436913 * Co 26 * Xv 4 * Xv 0 * Xv 2 + 0.9185586535436913 *
   Co 23 * Xv 3 * Xv 0 * Xv 2 + 0.5303300858899105 * Co 7 * Xv 0 * Xv 2 + 0.9185586535436913 * Co 30 * Xv 3 * Xv
   4 * Xv 2 + 0.5303300858899105 * Co 14 * Xv 4 * Xv 2 + 0.5303300858899105 * Co 11 * Xv 3 * Xv 2 +
   0.3061862178478971 * Co 3 * Xv 2 + 6.075694404757366 * Co 175 * (Xo (Xv 3 * Xv 4 * Xv 0 * Xv 1) (3 - 0.6 * Xv
   3 * Xv 4 * Xv 0 * Xv 1)) + 3.507803800100568 * Co 145 * (Xo (Xv 4 * Xv 0 * Xv 1) (3 - 0.6 * Xv 4 * Xv 0 * Xv
   1)) + 3.507803800100568 * Co 136 * (Xo (Xv 3 * Xv 0 * Xv 1) (3 - 0.6 * Xv 3 * Xv 0 * Xv 1)) +
   2.025231468252455 * Co 92 * (Xo (Xv 0 * Xv 1) (3 - 0.6 * Xv 0 * Xv 1)) + 3.507803800100568 * Co 151 * (Xo (Xv
   3 * Xv 4 * Xv 1) (3 - 0.6 * Xv 3 * Xv 4 * Xv 1)) + 2.025231468252455 * Co 104 * (Xo (Xv 4 * Xv 1) (3 - 0.6 *
   Xv 4 * Xv 1)) + 2.025231468252455 * Co 98 * (Xo (Xv 3 * Xv 1) (3 - 0.6 * Xv 3 * Xv 1)) + 1.169267933366856 *
   Co 52 * (Xo (Xv 1) (3 - 0.6 * Xv 1)) + 3.080939385966558 * Co 120 * (Xo (Xv 3 * Xv 4 * Xv 0 * Xv 1) (2 -
   0.3333333333333333 * Xv 3 * Xv 4 * Xv 0)) + 1.778781183844713 * Co 74 * (Xo (Xv 4 * Xv 0 * Xv 1) (2 -
   0.3333333333333333 * Xv 4 * Xv 0)) + 1.778781183844713 * Co 65 * (Xo (Xv 3 * Xv 0 * Xv 1) (2 -
   0.3333333333333333 * Xv 3 * Xv 0)) + 1.026979795322186 * Co 32 * (Xo (Xv 0 * Xv 1) (2 - 0.3333333333333333 *
   Xv 0)) + 1.778781183844713 * Co 80 * (Xo (Xv 3 * Xv 4 * Xv 1) (2 - 0.3333333333333333 * Xv 3 * Xv 4)) +
   1.026979795322186 * Co 44 * (Xo (Xv 4 * Xv 1) (2 - 0.3333333333333333 * Xv 4)) + 1.026979795322186 * Co 38 *
   (Xo (Xv 3 * Xv 1) (2 - 0.3333333333333333 * Xv 3)) + 0.592927061281571 * Co 17 * (Xo (Xv 1) (2 -
   0.3333333333333333)) + 6.075694404757366 * Co 174 * (Xo (Xv 3 * Xv 4 * Xv 0) (3 * Xv 1 - 0.6 * Xv 3 * Xv 4 *
   Xv 0 * Xv 1)) + 3.507803800100568 * Co 144 * (Xo (Xv 4 * Xv 0) (3 * Xv 1 - 0.6 * Xv 4 * Xv 0 * Xv 1)) +
   3.507803800100568 * Co 135 * (Xo (Xv 3 * Xv 0) (3 * Xv 1 - 0.6 * Xv 3 * Xv 0 * Xv 1)) + 2.025231468252455 * Co
   91 * (Xo (Xv 0) (3 * Xv 1 - 0.6 * Xv 0 * Xv 1)) + 3.080939385966558 * Co 119 * (Xo (Xv 3 * Xv 4 * Xv 0) (2 *
   Xv 1 - 0.3333333333333333 * Xv 3 * Xv 4 * Xv 1)) + 1.778781183844713 * Co 73 * (Xo (Xv 4 * Xv 0) (2 * Xv 1 -
   0.3333333333333333 * Xv 4 * Xv 1)) + 1.778781183844713 * Co 64 * (Xo (Xv 3 * Xv 0) (2 * Xv 1 -
   0.3333333333333333 * Xv 3 * Xv 1)) + 1.026979795322186 * Co 31 * (Xo (Xv 0) (2 * Xv 1 - 0.3333333333333333 *
   Xv 1)) + 6.075694404757366 * Co 184 * (Xo (Xv 3 * Xv 4) (3 * Xv 0 * Xv 1 - 0.6 * Xv 3 * Xv 4 * Xv 0 * Xv 1)) +
   3.507803800100568 * Co 156 * (Xo (Xv 4) (3 * Xv 0 * Xv 1 - 0.6 * Xv 4 * Xv 0 * Xv 1)) + 3.080939385966558 * Co
   129 * (Xo (Xv 3 * Xv 4) (2 * Xv 0 * Xv 1 - 0.3333333333333333 * Xv 3 * Xv 0 * Xv 1)) + 1.778781183844713 * Co
   85 * (Xo (Xv 4) (2 * Xv 0 * Xv 1 - 0.3333333333333333 * Xv 0 * Xv 1)) + 6.075694404757366 * Co 180 * (Xo (Xv
   3) (3 * Xv 4 * Xv 0 * Xv 1 - 0.6 * Xv 3 * Xv 4 * Xv 0 * Xv 1)) + 3.080939385966558 * Co 125 * (Xo (Xv 3) (2 *
   Xv 4 * Xv 0 * Xv 1 - 0.3333333333333333 * Xv 4 * Xv 0 * Xv 1)) + 3.507803800100568 * Co 141 * (Xo (Xv 3) (3 *
   Xv 0 * Xv 1 - 0.6 * Xv 3 * Xv 0 * Xv 1)) + 1.778781183844713 * Co 70 * (Xo (Xv 3) (2 * Xv 0 * Xv 1 -
   0.3333333333333333 * Xv 0 * Xv 1)) + 3.507803800100568 * Co 160 * (Xo (Xv 3 * Xv 4) (3 * Xv 1 - 0.6 * Xv 3 *
   Xv 4 * Xv 1)) + 2.025231468252455 * Co 108 * (Xo (Xv 4) (3 * Xv 1 - 0.6 * Xv 4 * Xv 1)) + 1.778781183844713 *
   Co 89 * (Xo (Xv 3 * Xv 4) (2 * Xv 1 - 0.3333333333333333 * Xv 3 * Xv 1)) + 1.026979795322186 * Co 48 * (Xo (Xv
   4) (2 * Xv 1 - 0.3333333333333333 * Xv 1)) + 3.507803800100568 * Co 154 * (Xo (Xv 3) (3 * Xv 4 * Xv 1 - 0.6 *
   Xv 3 * Xv 4 * Xv 1)) + 1.778781183844713 * Co 83 * (Xo (Xv 3) (2 * Xv 4 * Xv 1 - 0.3333333333333333 * Xv 4 *
   Xv 1)) + 2.025231468252455 * Co 101 * (Xo (Xv 3) (3 * Xv 1 - 0.6 * Xv 3 * Xv 1)) + 1.026979795322186 * Co 41 *
   (Xo (Xv 3) (2 * Xv 1 - 0.3333333333333333 * Xv 1)) + 1.590990257669731 * Co 58 * Xv 3 * Xv 4 * Xv 0 * Xv 1 +
   0.9185586535436913 * Co 25 * Xv 4 * Xv 0 * Xv 1 + 0.9185586535436913 * Co 22 * Xv 3 * Xv 0 * Xv 1 +
   0.5303300858899105 * Co 6 * Xv 0 * Xv 1 + 0.9185586535436913 * Co 29 * Xv 3 * Xv 4 * Xv 1 + 0.5303300858899105
   * Co 13 * Xv 4 * Xv 1 + 0.5303300858899105 * Co 10 * Xv 3 * Xv 1 + 0.3061862178478971 * Co 2 * Xv 1 +
   3.507803800100568 * Co 150 * (Xo (Xv 3 * Xv 4 * Xv 0) (3 - 0.6 * Xv 3 * Xv 4 * Xv 0)) + 2.025231468252455 * Co
   103 * (Xo (Xv 4 * Xv 0) (3 - 0.6 * Xv 4 * Xv 0)) + 2.025231468252455 * Co 97 * (Xo (Xv 3 * Xv 0) (3 - 0.6 * Xv
   3 * Xv 0)) + 1.169267933366856 * Co 51 * (Xo (Xv 0) (3 - 0.6 * Xv 0)) + 1.778781183844713 * Co 79 * (Xo (Xv 3
   * Xv 4 * Xv 0) (2 - 0.3333333333333333 * Xv 3 * Xv 4)) + 1.026979795322186 * Co 43 * (Xo (Xv 4 * Xv 0) (2 -
   0.3333333333333333 * Xv 4)) + 1.026979795322186 * Co 37 * (Xo (Xv 3 * Xv 0) (2 - 0.3333333333333333 * Xv 3)) +
   0.592927061281571 * Co 16 * (Xo (Xv 0) (2 - 0.3333333333333333)) + 3.507803800100568 * Co 159 * (Xo (Xv 3 * Xv
   4) (3 * Xv 0 - 0.6 * Xv 3 * Xv 4 * Xv 0)) + 2.025231468252455 * Co 107 * (Xo (Xv 4) (3 * Xv 0 - 0.6 * Xv 4 *
   Xv 0)) + 1.778781183844713 * Co 88 * (Xo (Xv 3 * Xv 4) (2 * Xv 0 - 0.3333333333333333 * Xv 3 * Xv 0)) +
   1.026979795322186 * Co 47 * (Xo (Xv 4) (2 * Xv 0 - 0.3333333333333333 * Xv 0)) + 3.507803800100568 * Co 153 *
   (Xo (Xv 3) (3 * Xv 4 * Xv 0 - 0.6 * Xv 3 * Xv 4 * Xv 0)) + 1.778781183844713 * Co 82 * (Xo (Xv 3) (2 * Xv 4 *
   Xv 0 - 0.3333333333333333 * Xv 4 * Xv 0)) + 2.025231468252455 * Co 100 * (Xo (Xv 3) (3 * Xv 0 - 0.6 * Xv 3 *
   Xv 0)) + 1.026979795322186 * Co 40 * (Xo (Xv 3) (2 * Xv 0 - 0.3333333333333333 * Xv 0)) + 0.9185586535436913 *
   Co 28 * Xv 3 * Xv 4 * Xv 0 + 0.5303300858899105 * Co 12 * Xv 4 * Xv 0 + 0.5303300858899105 * Co 9 * Xv 3 * Xv
   0 + 0.3061862178478971 * Co 1 * Xv 0 + 2.025231468252455 * Co 110 * (Xo (Xv 3 * Xv 4) (3 - 0.6 * Xv 3 * Xv 4))
   + 1.169267933366856 * Co 55 * (Xo (Xv 4) (3 - 0.6 * Xv 4)) + 1.026979795322186 * Co 50 * (Xo (Xv 3 * Xv 4) (2
   - 0.3333333333333333 * Xv 3)) + 0.592927061281571 * Co 20 * (Xo (Xv 4) (2 - 0.3333333333333333)) +
   2.025231468252455 * Co 106 * (Xo (Xv 3) (3 * Xv 4 - 0.6 * Xv 3 * Xv 4)) + 1.026979795322186 * Co 46 * (Xo (Xv
   3) (2 * Xv 4 - 0.3333333333333333 * Xv 4)) + 0.5303300858899105 * Co 15 * Xv 3 * Xv 4 + 0.3061862178478971 *
   Co 5 * Xv 4 + 1.169267933366856 * Co 54 * (Xo (Xv 3) (3 - 0.6 * Xv 3)) + 0.592927061281571 * Co 19 * (Xo (Xv
   3) (2 - 0.3333333333333333)) + 0.3061862178478971 * Co 4 * Xv 3 + 0.1767766952966368 * Co 0)%kexp.

(** expand5d.py 483-1407. *)
Definition kt_5d4p : option kexp := Some (
   20.88174713191522 * Co 349 * 12.05608232776094 * Co 333 * (Xo (Xv 4 * Xv 0 * Xv 1 * Xv 2) (4 -
   0.8571428571428571 * (Xo (Xv 4 * Xv 0 * Xv 1 * Xv 2) (2 - 0.3333333333333333 * Xv 4 * Xv 0 * Xv 1)) - 0.2 * Xv
   4 * Xv 0 * Xv 1)) + 12.05608232776094 * Co 329 * (Xo (Xv 3 * Xv 0 * Xv 1 * Xv 2) (4 - 0.8571428571428571 * (Xo
   (Xv 3 * Xv 0 * Xv 1 * Xv 2) (2 - 0.3333333333333333 * Xv 3 * Xv 0 * Xv 1)) - 0.2 * Xv 3 * Xv 0 * Xv 1)) +
   6.960582377305072 * Co 284 * (Xo (Xv 0 * Xv 1 * Xv 2) (4 - 0.8571428571428571 * (Xo (Xv 0 * Xv 1 * Xv 2) (2 -
   0.3333333333333333 * Xv 0 * Xv 1)) - 0.2 * Xv 0 * Xv 1)) + 12.05608232776094 * Co 339 * (Xo (Xv 3 * Xv 4 * Xv
   1 * Xv 2) (4 - 0.8571428571428571 * (Xo (Xv 3 * Xv 4 * Xv 1 * Xv 2) (2 - 0.3333333333333333 * Xv 3 * Xv 4 * Xv
   1)) - 0.2 * Xv 3 * Xv 4 * Xv 1)) + 6.960582377305072 * Co 299 * (Xo (Xv 4 * Xv 1 * Xv 2) (4 -
   0.8571428571428571 * (Xo (Xv 4 * Xv 1 * Xv 2) (2 - 0.3333333333333333 * Xv 4 * Xv 1)) - 0.2 * Xv 4 * Xv 1)) +
   6.960582377305072 * Co 290 * (Xo (Xv 3 * Xv 1 * Xv 2) (4 - 0.8571428571428571 * (Xo (Xv 3 * Xv 1 * Xv 2) (2 -
   0.3333333333333333 * Xv 3 * Xv 1)) - 0.2 * Xv 3 * Xv 1)) + 4.018694109253648 * Co 212 * (Xo (Xv 1 * Xv 2) (4 -
   0.8571428571428571 * (Xo (Xv 1 * Xv 2) (2 - 0.3333333333333333 * Xv 1)) - 0.2 * Xv 1)) + 12.05608232776094 *
   Co 338 * (Xo (Xv 3 * Xv 4 * Xv 0 * Xv 2) (4 - 0.8571428571428571 * (Xo (Xv 3 * Xv 4 * Xv 0 * Xv 2) (2 -
   0.3333333333333333 * Xv 3 * Xv 4 * Xv 0)) - 0.2 * Xv 3 * Xv 4 * Xv 0)) + 6.960582377305072 * Co 298 * (Xo (Xv
   4 * Xv 0 * Xv 2) (4 - 0.8571428571428571 * (Xo (Xv 4 * Xv 0 * Xv 2) (2 - 0.3333333333333333 * Xv 4 * Xv 0)) -
   0.2 * Xv 4 * Xv 0)) + 6.960582377305072 * Co 289 * (Xo (Xv 3 * Xv 0 * Xv 2) (4 - 0.8571428571428571 * (Xo (Xv
   3 * Xv 0 * Xv 2) (2 - 0.3333333333333333 * Xv 3 * Xv 0)) - 0.2 * Xv 3 * Xv 0)) + 4.018694109253648 * Co 211 *
   (Xo (Xv 0 * Xv 2) (4 - 0.8571428571428571 * (Xo (Xv 0 * Xv 2) (2 - 0.3333333333333333 * Xv 0)) - 0.2 * Xv 0))
   + 6.960582377305072 * Co 302 * (Xo (Xv 3 * Xv 4 * Xv 2) (4 - 0.8571428571428571 * (Xo (Xv 3 * Xv 4 * Xv 2) (2
   - 0.3333333333333333 * Xv 3 * Xv 4)) - 0.2 * Xv 3 * Xv 4)) + 4.018694109253648 * Co 221 * (Xo (Xv 4 * Xv 2) (4
   - 0.8571428571428571 * (Xo (Xv 4 * Xv 2) (2 - 0.3333333333333333 * Xv 4)) - 0.2 * Xv 4)) + 4.018694109253648 *
   Co 215 * (Xo (Xv 3 * Xv 2) (4 - 0.8571428571428571 * (Xo (Xv 3 * Xv 2) (2 - 0.3333333333333333 * Xv 3)) - 0.2
   * Xv 3)) + 2.320194125768357 * Co 123 * (Xo (Xv 2) (4 - 0.8571428571428571 * (Xo (Xv 2) (2 -
   0.3333333333333333)) - 0.2)) + 10.52341140030171 * Co 324 * (Xo (Xv 3 * Xv 4 * Xv 0 * Xv 1 * Xv 2) (3 - 0.6 *
   Xv 3 * Xv 4 * Xv 0 * Xv 1 * Xv 2)) + 6.075694404757366 * Co 268 * (Xo (Xv 4 * Xv 0 * Xv 1 * Xv 2) (3 - 0.6 *
   Xv 4 * Xv 0 * Xv 1 * Xv 2)) + 6.075694404757366 * Co 264 * (Xo (Xv 3 * Xv 0 * Xv 1 * Xv 2) (3 - 0.6 * Xv 3 *
   Xv 0 * Xv 1 * Xv 2)) + 3.507803800100568 * Co 179 * (Xo (Xv 0 * Xv 1 * Xv 2) (3 - 0.6 * Xv 0 * Xv 1 * Xv 2)) +
   6.075694404757366 * Co 274 * (Xo (Xv 3 * Xv 4 * Xv 1 * Xv 2) (3 - 0.6 * Xv 3 * Xv 4 * Xv 1 * Xv 2)) +
   3.507803800100568 * Co 194 * (Xo (Xv 4 * Xv 1 * Xv 2) (3 - 0.6 * Xv 4 * Xv 1 * Xv 2)) + 3.507803800100568 * Co
   185 * (Xo (Xv 3 * Xv 1 * Xv 2) (3 - 0.6 * Xv 3 * Xv 1 * Xv 2)) + 2.025231468252455 * Co 106 * (Xo (Xv 1 * Xv
   2) (3 - 0.6 * Xv 1 * Xv 2)) + 6.075694404757366 * Co 273 * (Xo (Xv 3 * Xv 4 * Xv 0 * Xv 2) (3 - 0.6 * Xv 3 *
   Xv 4 * Xv 0 * Xv 2)) + 3.507803800100568 * Co 193 * (Xo (Xv 4 * Xv 0 * Xv 2) (3 - 0.6 * Xv 4 * Xv 0 * Xv 2)) +
   3.507803800100568 * Co 184 * (Xo (Xv 3 * Xv 0 * Xv 2) (3 - 0.6 * Xv 3 * Xv 0 * Xv 2)) + 2.025231468252455 * Co
   105 * (Xo (Xv 0 * Xv 2) (3 - 0.6 * Xv 0 * Xv 2)) + 3.507803800100568 * Co 197 * (Xo (Xv 3 * Xv 4 * Xv 2) (3 -
   0.6 * Xv 3 * Xv 4 * Xv 2)) + 2.025231468252455 * Co 115 * (Xo (Xv 4 * Xv 2) (3 - 0.6 * Xv 4 * Xv 2)) +
   2.025231468252455 * Co 109 * (Xo (Xv 3 * Xv 2) (3 - 0.6 * Xv 3 * Xv 2)) + 1.169267933366856 * Co 53 * (Xo (Xv
   2) (3 - 0.6 * Xv 2)) + 10.33378485236652 * Co 317 * 10.33378485236652 * Co 320 * 5.966213466261491 * Co 252 *
   5.966213466261491 * Co 237 * 10.33378485236652 * Co 313 * 5.966213466261491 * Co 239 * 5.966213466261491 * Co
   249 * 5.966213466261491 * Co 233 * 5.966213466261491 * Co 258 * 3.444594950788841 * Co 148 * 3.444594950788841
   * Co 170 * 3.444594950788841 * Co 158 * 10.33378485236652 * Co 314 * 5.966213466261491 * Co 240 *
   5.966213466261491 * Co 248 * 5.966213466261491 * Co 234 * 5.966213466261491 * Co 257 * 3.444594950788841 * Co
   149 * 3.444594950788841 * Co 169 * 3.444594950788841 * Co 157 * 5.966213466261491 * Co 243 * 5.966213466261491
   * Co 242 * 3.444594950788841 * Co 161 * 3.444594950788841 * Co 160 * 3.444594950788841 * Co 164 *
   3.444594950788841 * Co 152 * 3.444594950788841 * Co 151 * 3.444594950788841 * Co 173 * 1.988737822087164 * Co
   93 * 5.336343551534138 * Co 229 * (Xo (Xv 3 * Xv 4 * Xv 0 * Xv 1 * Xv 2) (2 - 0.3333333333333333 * Xv 3 * Xv 4
   * Xv 0 * Xv 1)) + 3.080939385966558 * Co 133 * (Xo (Xv 4 * Xv 0 * Xv 1 * Xv 2) (2 - 0.3333333333333333 * Xv 4
   * Xv 0 * Xv 1)) + 3.080939385966558 * Co 129 * (Xo (Xv 3 * Xv 0 * Xv 1 * Xv 2) (2 - 0.3333333333333333 * Xv 3
   * Xv 0 * Xv 1)) + 1.778781183844713 * Co 63 * (Xo (Xv 0 * Xv 1 * Xv 2) (2 - 0.3333333333333333 * Xv 0 * Xv 1))
   + 3.080939385966558 * Co 139 * (Xo (Xv 3 * Xv 4 * Xv 1 * Xv 2) (2 - 0.3333333333333333 * Xv 3 * Xv 4 * Xv 1))
   + 1.778781183844713 * Co 78 * (Xo (Xv 4 * Xv 1 * Xv 2) (2 - 0.3333333333333333 * Xv 4 * Xv 1)) +
   1.778781183844713 * Co 69 * (Xo (Xv 3 * Xv 1 * Xv 2) (2 - 0.3333333333333333 * Xv 3 * Xv 1)) +
   1.026979795322186 * Co 36 * (Xo (Xv 1 * Xv 2) (2 - 0.3333333333333333 * Xv 1)) + 1.988737822087164 * Co 92 *
   3.080939385966558 * Co 138 * (Xo (Xv 3 * Xv 4 * Xv 0 * Xv 2) (2 - 0.3333333333333333 * Xv 3 * Xv 4 * Xv 0)) +
   1.778781183844713 * Co 77 * (Xo (Xv 4 * Xv 0 * Xv 2) (2 - 0.3333333333333333 * Xv 4 * Xv 0)) +
   1.778781183844713 * Co 68 * (Xo (Xv 3 * Xv 0 * Xv 2) (2 - 0.3333333333333333 * Xv 3 * Xv 0)) +
   1.026979795322186 * Co 35 * (Xo (Xv 0 * Xv 2) (2 - 0.3333333333333333 * Xv 0)) + 1.988737822087164 * Co 99 *
   1.778781183844713 * Co 81 * (Xo (Xv 3 * Xv 4 * Xv 2) (2 - 0.3333333333333333 * Xv 3 * Xv 4)) +
   1.026979795322186 * Co 45 * (Xo (Xv 4 * Xv 2) (2 - 0.3333333333333333 * Xv 4)) + 1.988737822087164 * Co 96 *
   1.026979795322186 * Co 39 * (Xo (Xv 3 * Xv 2) (2 - 0.3333333333333333 * Xv 3)) + 0.592927061281571 * Co 18 *
   (Xo (Xv 2) (2 - 0.3333333333333333)) + 20.88174713191522 * Co 348 * 10.33378485236652 * Co 316 *
   12.05608232776094 * Co 332 * (Xo ((Ng (0.8571428571428571)) * (Xo (Xv 4 * Xv 0 * Xv 1) (2 * Xv 2 -
   0.3333333333333333 * Xv 4 * Xv 0 * Xv 2)) + Xv 4 * Xv 0 * Xv 1) (4 * Xv 2 - 0.2 * Xv 4 * Xv 0 * Xv 2)) +
   10.33378485236652 * Co 319 * 12.05608232776094 * Co 328 * (Xo ((Ng (0.8571428571428571)) * (Xo (Xv 3 * Xv 0 *
   Xv 1) (2 * Xv 2 - 0.3333333333333333 * Xv 3 * Xv 0 * Xv 2)) + Xv 3 * Xv 0 * Xv 1) (4 * Xv 2 - 0.2 * Xv 3 * Xv
   0 * Xv 2)) + 5.966213466261491 * Co 251 * 5.966213466261491 * Co 236 * 6.960582377305072 * Co 283 * (Xo ((Ng
   (0.8571428571428571)) * (Xo (Xv 0 * Xv 1) (2 * Xv 2 - 0.3333333333333333 * Xv 0 * Xv 2)) + Xv 0 * Xv 1) (4 *
   Xv 2 - 0.2 * Xv 0 * Xv 2)) + 10.33378485236652 * Co 312 * 12.05608232776094 * Co 337 * (Xo ((Ng
   (0.8571428571428571)) * (Xo (Xv 3 * Xv 4 * Xv 1) (2 * Xv 2 - 0.3333333333333333 * Xv 3 * Xv 4 * Xv 2)) + Xv 3
   * Xv 4 * Xv 1) (4 * Xv 2 - 0.2 * Xv 3 * Xv 4 * Xv 2)) + 5.966213466261491 * Co 238 * 5.966213466261491 * Co
   247 * 6.960582377305072 * Co 297 * (Xo ((Ng (0.8571428571428571)) * (Xo (Xv 4 * Xv 1) (2 * Xv 2 -
   0.3333333333333333 * Xv 4 * Xv 2)) + Xv 4 * Xv 1) (4 * Xv 2 - 0.2 * Xv 4 * Xv 2)) + 5.966213466261491 * Co 232
   * 5.966213466261491 * Co 256 * 6.960582377305072 * Co 288 * (Xo ((Ng (0.8571428571428571)) * (Xo (Xv 3 * Xv 1)
   (2 * Xv 2 - 0.3333333333333333 * Xv 3 * Xv 2)) + Xv 3 * Xv 1) (4 * Xv 2 - 0.2 * Xv 3 * Xv 2)) +
   3.444594950788841 * Co 147 * 3.444594950788841 * Co 168 * 3.444594950788841 * Co 156 * 4.018694109253648 * Co
   210 * (Xo ((Ng (0.8571428571428571)) * (Xo (Xv 1) (2 * Xv 2 - 0.3333333333333333 * Xv 2)) + Xv 1) (4 * Xv 2 -
   0.2 * Xv 2)) + 20.88174713191522 * Co 347 * 10.33378485236652 * Co 315 * 12.05608232776094 * Co 331 * (Xo ((Ng
   (0.8571428571428571)) * (Xo (Xv 4 * Xv 0) (2 * Xv 1 * Xv 2 - 0.3333333333333333 * Xv 4 * Xv 1 * Xv 2)) + Xv 4
   * Xv 0) (4 * Xv 1 * Xv 2 - 0.2 * Xv 4 * Xv 1 * Xv 2)) + 10.33378485236652 * Co 318 * 12.05608232776094 * Co
   327 * (Xo ((Ng (0.8571428571428571)) * (Xo (Xv 3 * Xv 0) (2 * Xv 1 * Xv 2 - 0.3333333333333333 * Xv 3 * Xv 1 *
   Xv 2)) + Xv 3 * Xv 0) (4 * Xv 1 * Xv 2 - 0.2 * Xv 3 * Xv 1 * Xv 2)) + 5.966213466261491 * Co 250 *
   5.966213466261491 * Co 235 * 6.960582377305072 * Co 282 * (Xo ((Ng (0.8571428571428571)) * (Xo (Xv 0) (2 * Xv
   1 * Xv 2 - 0.3333333333333333 * Xv 1 * Xv 2)) + Xv 0) (4 * Xv 1 * Xv 2 - 0.2 * Xv 1 * Xv 2)) +
   20.88174713191522 * Co 351 * 10.33378485236652 * Co 321 * 12.05608232776094 * Co 343 * (Xo ((Ng
   (0.8571428571428571)) * (Xo (Xv 4) (2 * Xv 0 * Xv 1 * Xv 2 - 0.3333333333333333 * Xv 0 * Xv 1 * Xv 2)) + Xv 4)
   (4 * Xv 0 * Xv 1 * Xv 2 - 0.2 * Xv 0 * Xv 1 * Xv 2)) + 20.88174713191522 * Co 350 * 12.05608232776094 * Co 330
   * (Xo ((Ng (0.8571428571428571)) * (Xo (Xv 3) (2 * Xv 0 * Xv 1 * Xv 2 - 0.3333333333333333 * Xv 0 * Xv 1 * Xv
   2)) + Xv 3) (4 * Xv 0 * Xv 1 * Xv 2 - 0.2 * Xv 0 * Xv 1 * Xv 2)) + 12.05608232776094 * Co 346 * (Xo ((Ng
   (0.8571428571428571)) * (Xo (Xv 3 * Xv 4) (2 * Xv 1 * Xv 2 - 0.3333333333333333 * Xv 3 * Xv 1 * Xv 2)) + Xv 3
   * Xv 4) (4 * Xv 1 * Xv 2 - 0.2 * Xv 3 * Xv 1 * Xv 2)) + 5.966213466261491 * Co 261 * 6.960582377305072 * Co
   308 * (Xo ((Ng (0.8571428571428571)) * (Xo (Xv 4) (2 * Xv 1 * Xv 2 - 0.3333333333333333 * Xv 1 * Xv 2)) + Xv
   4) (4 * Xv 1 * Xv 2 - 0.2 * Xv 1 * Xv 2)) + 12.05608232776094 * Co 342 * (Xo ((Ng (0.8571428571428571)) * (Xo
   (Xv 3) (2 * Xv 4 * Xv 1 * Xv 2 - 0.3333333333333333 * Xv 4 * Xv 1 * Xv 2)) + Xv 3) (4 * Xv 4 * Xv 1 * Xv 2 -
   0.2 * Xv 4 * Xv 1 * Xv 2)) + 6.960582377305072 * Co 293 * (Xo ((Ng (0.8571428571428571)) * (Xo (Xv 3) (2 * Xv
   1 * Xv 2 - 0.3333333333333333 * Xv 1 * Xv 2)) + Xv 3) (4 * Xv 1 * Xv 2 - 0.2 * Xv 1 * Xv 2)) +
   12.05608232776094 * Co 336 * (Xo ((Ng (0.8571428571428571)) * (Xo (Xv 3 * Xv 4 * Xv 0) (2 * Xv 2 -
   0.3333333333333333 * Xv 3 * Xv 4 * Xv 2)) + Xv 3 * Xv 4 * Xv 0) (4 * Xv 2 - 0.2 * Xv 3 * Xv 4 * Xv 2)) +
   5.966213466261491 * Co 246 * 6.960582377305072 * Co 296 * (Xo ((Ng (0.8571428571428571)) * (Xo (Xv 4 * Xv 0)
   (2 * Xv 2 - 0.3333333333333333 * Xv 4 * Xv 2)) + Xv 4 * Xv 0) (4 * Xv 2 - 0.2 * Xv 4 * Xv 2)) +
   5.966213466261491 * Co 255 * 6.960582377305072 * Co 287 * (Xo ((Ng (0.8571428571428571)) * (Xo (Xv 3 * Xv 0)
   (2 * Xv 2 - 0.3333333333333333 * Xv 3 * Xv 2)) + Xv 3 * Xv 0) (4 * Xv 2 - 0.2 * Xv 3 * Xv 2)) +
   3.444594950788841 * Co 167 * 3.444594950788841 * Co 155 * 4.018694109253648 * Co 209 * (Xo ((Ng
   (0.8571428571428571)) * (Xo (Xv 0) (2 * Xv 2 - 0.3333333333333333 * Xv 2)) + Xv 0) (4 * Xv 2 - 0.2 * Xv 2)) +
   12.05608232776094 * Co 345 * (Xo ((Ng (0.8571428571428571)) * (Xo (Xv 3 * Xv 4) (2 * Xv 0 * Xv 2 -
   0.3333333333333333 * Xv 3 * Xv 0 * Xv 2)) + Xv 3 * Xv 4) (4 * Xv 0 * Xv 2 - 0.2 * Xv 3 * Xv 0 * Xv 2)) +
   5.966213466261491 * Co 260 * 6.960582377305072 * Co 307 * (Xo ((Ng (0.8571428571428571)) * (Xo (Xv 4) (2 * Xv
   0 * Xv 2 - 0.3333333333333333 * Xv 0 * Xv 2)) + Xv 4) (4 * Xv 0 * Xv 2 - 0.2 * Xv 0 * Xv 2)) +
   12.05608232776094 * Co 341 * (Xo ((Ng (0.8571428571428571)) * (Xo (Xv 3) (2 * Xv 4 * Xv 0 * Xv 2 -
   0.3333333333333333 * Xv 4 * Xv 0 * Xv 2)) + Xv 3) (4 * Xv 4 * Xv 0 * Xv 2 - 0.2 * Xv 4 * Xv 0 * Xv 2)) +
   6.960582377305072 * Co 292 * (Xo ((Ng (0.8571428571428571)) * (Xo (Xv 3) (2 * Xv 0 * Xv 2 - 0.3333333333333333
   * Xv 0 * Xv 2)) + Xv 3) (4 * Xv 0 * Xv 2 - 0.2 * Xv 0 * Xv 2)) + 6.960582377305072 * Co 311 * (Xo ((Ng
   (0.8571428571428571)) * (Xo (Xv 3 * Xv 4) (2 * Xv 2 - 0.3333333333333333 * Xv 3 * Xv 2)) + Xv 3 * Xv 4) (4 *
   Xv 2 - 0.2 * Xv 3 * Xv 2)) + 3.444594950788841 * Co 176 * 4.018694109253648 * Co 225 * (Xo ((Ng
   (0.8571428571428571)) * (Xo (Xv 4) (2 * Xv 2 - 0.3333333333333333 * Xv 2)) + Xv 4) (4 * Xv 2 - 0.2 * Xv 2)) +
   6.960582377305072 * Co 305 * (Xo ((Ng (0.8571428571428571)) * (Xo (Xv 3) (2 * Xv 4 * Xv 2 - 0.3333333333333333
   * Xv 4 * Xv 2)) + Xv 3) (4 * Xv 4 * Xv 2 - 0.2 * Xv 4 * Xv 2)) + 4.018694109253648 * Co 218 * (Xo ((Ng
   (0.8571428571428571)) * (Xo (Xv 3) (2 * Xv 2 - 0.3333333333333333 * Xv 2)) + Xv 3) (4 * Xv 2 - 0.2 * Xv 2)) +
   10.52341140030171 * Co 323 * (Xo (Xv 3 * Xv 4 * Xv 0 * Xv 1) (3 * Xv 2 - 0.6 * Xv 3 * Xv 4 * Xv 0 * Xv 1 * Xv
   2)) + 6.075694404757366 * Co 267 * (Xo (Xv 4 * Xv 0 * Xv 1) (3 * Xv 2 - 0.6 * Xv 4 * Xv 0 * Xv 1 * Xv 2)) +
   6.075694404757366 * Co 263 * (Xo (Xv 3 * Xv 0 * Xv 1) (3 * Xv 2 - 0.6 * Xv 3 * Xv 0 * Xv 1 * Xv 2)) +
   3.507803800100568 * Co 178 * (Xo (Xv 0 * Xv 1) (3 * Xv 2 - 0.6 * Xv 0 * Xv 1 * Xv 2)) + 6.075694404757366 * Co
   272 * (Xo (Xv 3 * Xv 4 * Xv 1) (3 * Xv 2 - 0.6 * Xv 3 * Xv 4 * Xv 1 * Xv 2)) + 3.507803800100568 * Co 192 *
   (Xo (Xv 4 * Xv 1) (3 * Xv 2 - 0.6 * Xv 4 * Xv 1 * Xv 2)) + 3.507803800100568 * Co 183 * (Xo (Xv 3 * Xv 1) (3 *
   Xv 2 - 0.6 * Xv 3 * Xv 1 * Xv 2)) + 2.025231468252455 * Co 104 * (Xo (Xv 1) (3 * Xv 2 - 0.6 * Xv 1 * Xv 2)) +
   5.336343551534138 * Co 228 * (Xo (Xv 3 * Xv 4 * Xv 0 * Xv 1) (2 * Xv 2 - 0.3333333333333333 * Xv 3 * Xv 4 * Xv
   0 * Xv 2)) + 3.080939385966558 * Co 132 * (Xo (Xv 4 * Xv 0 * Xv 1) (2 * Xv 2 - 0.3333333333333333 * Xv 4 * Xv
   0 * Xv 2)) + 3.080939385966558 * Co 128 * (Xo (Xv 3 * Xv 0 * Xv 1) (2 * Xv 2 - 0.3333333333333333 * Xv 3 * Xv
   0 * Xv 2)) + 1.778781183844713 * Co 62 * (Xo (Xv 0 * Xv 1) (2 * Xv 2 - 0.3333333333333333 * Xv 0 * Xv 2)) +
   3.080939385966558 * Co 137 * (Xo (Xv 3 * Xv 4 * Xv 1) (2 * Xv 2 - 0.3333333333333333 * Xv 3 * Xv 4 * Xv 2)) +
   1.778781183844713 * Co 76 * (Xo (Xv 4 * Xv 1) (2 * Xv 2 - 0.3333333333333333 * Xv 4 * Xv 2)) +
   1.778781183844713 * Co 67 * (Xo (Xv 3 * Xv 1) (2 * Xv 2 - 0.3333333333333333 * Xv 3 * Xv 2)) +
   1.026979795322186 * Co 34 * (Xo (Xv 1) (2 * Xv 2 - 0.3333333333333333 * Xv 2)) + 10.52341140030171 * Co 322 *
   (Xo (Xv 3 * Xv 4 * Xv 0) (3 * Xv 1 * Xv 2 - 0.6 * Xv 3 * Xv 4 * Xv 0 * Xv 1 * Xv 2)) + 6.075694404757366 * Co
   266 * (Xo (Xv 4 * Xv 0) (3 * Xv 1 * Xv 2 - 0.6 * Xv 4 * Xv 0 * Xv 1 * Xv 2)) + 6.075694404757366 * Co 262 *
   (Xo (Xv 3 * Xv 0) (3 * Xv 1 * Xv 2 - 0.6 * Xv 3 * Xv 0 * Xv 1 * Xv 2)) + 3.507803800100568 * Co 177 * (Xo (Xv
   0) (3 * Xv 1 * Xv 2 - 0.6 * Xv 0 * Xv 1 * Xv 2)) + 5.336343551534138 * Co 227 * (Xo (Xv 3 * Xv 4 * Xv 0) (2 *
   Xv 1 * Xv 2 - 0.3333333333333333 * Xv 3 * Xv 4 * Xv 1 * Xv 2)) + 3.080939385966558 * Co 131 * (Xo (Xv 4 * Xv
   0) (2 * Xv 1 * Xv 2 - 0.3333333333333333 * Xv 4 * Xv 1 * Xv 2)) + 3.080939385966558 * Co 127 * (Xo (Xv 3 * Xv
   0) (2 * Xv 1 * Xv 2 - 0.3333333333333333 * Xv 3 * Xv 1 * Xv 2)) + 1.778781183844713 * Co 61 * (Xo (Xv 0) (2 *
   Xv 1 * Xv 2 - 0.3333333333333333 * Xv 1 * Xv 2)) + 10.52341140030171 * Co 326 * (Xo (Xv 3 * Xv 4) (3 * Xv 0 *
   Xv 1 * Xv 2 - 0.6 * Xv 3 * Xv 4 * Xv 0 * Xv 1 * Xv 2)) + 6.075694404757366 * Co 278 * (Xo (Xv 4) (3 * Xv 0 *
   Xv 1 * Xv 2 - 0.6 * Xv 4 * Xv 0 * Xv 1 * Xv 2)) + 5.336343551534138 * Co 231 * (Xo (Xv 3 * Xv 4) (2 * Xv 0 *
   Xv 1 * Xv 2 - 0.3333333333333333 * Xv 3 * Xv 0 * Xv 1 * Xv 2)) + 3.080939385966558 * Co 143 * (Xo (Xv 4) (2 *
   Xv 0 * Xv 1 * Xv 2 - 0.3333333333333333 * Xv 0 * Xv 1 * Xv 2)) + 10.52341140030171 * Co 325 * (Xo (Xv 3) (3 *
   Xv 4 * Xv 0 * Xv 1 * Xv 2 - 0.6 * Xv 3 * Xv 4 * Xv 0 * Xv 1 * Xv 2)) + 5.336343551534138 * Co 230 * (Xo (Xv 3)
   (2 * Xv 4 * Xv 0 * Xv 1 * Xv 2 - 0.3333333333333333 * Xv 4 * Xv 0 * Xv 1 * Xv 2)) + 6.075694404757366 * Co 265
   * (Xo (Xv 3) (3 * Xv 0 * Xv 1 * Xv 2 - 0.6 * Xv 3 * Xv 0 * Xv 1 * Xv 2)) + 3.080939385966558 * Co 130 * (Xo
   (Xv 3) (2 * Xv 0 * Xv 1 * Xv 2 - 0.3333333333333333 * Xv 0 * Xv 1 * Xv 2)) + 6.075694404757366 * Co 281 * (Xo
   (Xv 3 * Xv 4) (3 * Xv 1 * Xv 2 - 0.6 * Xv 3 * Xv 4 * Xv 1 * Xv 2)) + 3.507803800100568 * Co 203 * (Xo (Xv 4)
   (3 * Xv 1 * Xv 2 - 0.6 * Xv 4 * Xv 1 * Xv 2)) + 3.080939385966558 * Co 146 * (Xo (Xv 3 * Xv 4) (2 * Xv 1 * Xv
   2 - 0.3333333333333333 * Xv 3 * Xv 1 * Xv 2)) + 1.778781183844713 * Co 87 * (Xo (Xv 4) (2 * Xv 1 * Xv 2 -
   0.3333333333333333 * Xv 1 * Xv 2)) + 6.075694404757366 * Co 277 * (Xo (Xv 3) (3 * Xv 4 * Xv 1 * Xv 2 - 0.6 *
   Xv 3 * Xv 4 * Xv 1 * Xv 2)) + 3.080939385966558 * Co 142 * (Xo (Xv 3) (2 * Xv 4 * Xv 1 * Xv 2 -
   0.3333333333333333 * Xv 4 * Xv 1 * Xv 2)) + 3.507803800100568 * Co 188 * (Xo (Xv 3) (3 * Xv 1 * Xv 2 - 0.6 *
   Xv 3 * Xv 1 * Xv 2)) + 1.778781183844713 * Co 72 * (Xo (Xv 3) (2 * Xv 1 * Xv 2 - 0.3333333333333333 * Xv 1 *
   Xv 2)) + 6.075694404757366 * Co 271 * (Xo (Xv 3 * Xv 4 * Xv 0) (3 * Xv 2 - 0.6 * Xv 3 * Xv 4 * Xv 0 * Xv 2)) +
   3.507803800100568 * Co 191 * (Xo (Xv 4 * Xv 0) (3 * Xv 2 - 0.6 * Xv 4 * Xv 0 * Xv 2)) + 3.507803800100568 * Co
   182 * (Xo (Xv 3 * Xv 0) (3 * Xv 2 - 0.6 * Xv 3 * Xv 0 * Xv 2)) + 2.025231468252455 * Co 103 * (Xo (Xv 0) (3 *
   Xv 2 - 0.6 * Xv 0 * Xv 2)) + 3.080939385966558 * Co 136 * (Xo (Xv 3 * Xv 4 * Xv 0) (2 * Xv 2 -
   0.3333333333333333 * Xv 3 * Xv 4 * Xv 2)) + 1.778781183844713 * Co 75 * (Xo (Xv 4 * Xv 0) (2 * Xv 2 -
   0.3333333333333333 * Xv 4 * Xv 2)) + 1.778781183844713 * Co 66 * (Xo (Xv 3 * Xv 0) (2 * Xv 2 -
   0.3333333333333333 * Xv 3 * Xv 2)) + 1.026979795322186 * Co 33 * (Xo (Xv 0) (2 * Xv 2 - 0.3333333333333333 *
   Xv 2)) + 6.075694404757366 * Co 280 * (Xo (Xv 3 * Xv 4) (3 * Xv 0 * Xv 2 - 0.6 * Xv 3 * Xv 4 * Xv 0 * Xv 2)) +
   3.507803800100568 * Co 202 * (Xo (Xv 4) (3 * Xv 0 * Xv 2 - 0.6 * Xv 4 * Xv 0 * Xv 2)) + 3.080939385966558 * Co
   145 * (Xo (Xv 3 * Xv 4) (2 * Xv 0 * Xv 2 - 0.3333333333333333 * Xv 3 * Xv 0 * Xv 2)) + 1.778781183844713 * Co
   86 * (Xo (Xv 4) (2 * Xv 0 * Xv 2 - 0.3333333333333333 * Xv 0 * Xv 2)) + 6.075694404757366 * Co 276 * (Xo (Xv
   3) (3 * Xv 4 * Xv 0 * Xv 2 - 0.6 * Xv 3 * Xv 4 * Xv 0 * Xv 2)) + 3.080939385966558 * Co 141 * (Xo (Xv 3) (2 *
   Xv 4 * Xv 0 * Xv 2 - 0.3333333333333333 * Xv 4 * Xv 0 * Xv 2)) + 3.507803800100568 * Co 187 * (Xo (Xv 3) (3 *
   Xv 0 * Xv 2 - 0.6 * Xv 3 * Xv 0 * Xv 2)) + 1.778781183844713 * Co 71 * (Xo (Xv 3) (2 * Xv 0 * Xv 2 -
   0.3333333333333333 * Xv 0 * Xv 2)) + 3.507803800100568 * Co 206 * (Xo (Xv 3 * Xv 4) (3 * Xv 2 - 0.6 * Xv 3 *
   Xv 4 * Xv 2)) + 2.025231468252455 * Co 119 * (Xo (Xv 4) (3 * Xv 2 - 0.6 * Xv 4 * Xv 2)) + 1.778781183844713 *
   Co 90 * (Xo (Xv 3 * Xv 4) (2 * Xv 2 - 0.3333333333333333 * Xv 3 * Xv 2)) + 1.026979795322186 * Co 49 * (Xo (Xv
   4) (2 * Xv 2 - 0.3333333333333333 * Xv 2)) + 3.507803800100568 * Co 200 * (Xo (Xv 3) (3 * Xv 4 * Xv 2 - 0.6 *
   Xv 3 * Xv 4 * Xv 2)) + 1.778781183844713 * Co 84 * (Xo (Xv 3) (2 * Xv 4 * Xv 2 - 0.3333333333333333 * Xv 4 *
   Xv 2)) + 2.025231468252455 * Co 112 * (Xo (Xv 3) (3 * Xv 2 - 0.6 * Xv 3 * Xv 2)) + 1.026979795322186 * Co 42 *
   (Xo (Xv 3) (2 * Xv 2 - 0.3333333333333333 * Xv 2)) + 2.755675960631073 * Co 126 * Xv 3 * Xv 4 * Xv 0 * Xv 1 *
   Xv 2 + 1.590990257669731 * Co 57 * Xv 4 * Xv 0 * Xv 1 * Xv 2 + 1.590990257669731 * Co 56 * Xv 3 * Xv 0 * Xv 1
   * Xv 2 + 0.9185586535436913 * Co 21 * Xv 0 * Xv 1 * Xv 2 + 1.590990257669731 * Co 60 * Xv 3 * Xv 4 * Xv 1 * Xv
   2 + 0.9185586535436913 * Co 27 * Xv 4 * Xv 1 * Xv 2 + 0.9185586535436913 * Co 24 * Xv 3 * Xv 1 * Xv 2 +
   0.5303300858899105 * Co 8 * Xv 1 * Xv 2 + 1.590990257669731 * Co 59 * Xv 3 * Xv 4 * Xv 0 * Xv 2 +
   0.9185586535436913 * Co 26 * Xv 4 * Xv 0 * Xv 2 + 0.9185586535436913 * Co 23 * Xv 3 * Xv 0 * Xv 2 +
   0.5303300858899105 * Co 7 * Xv 0 * Xv 2 + 0.9185586535436913 * Co 30 * Xv 3 * Xv 4 * Xv 2 + 0.5303300858899105
   * Co 14 * Xv 4 * Xv 2 + 0.5303300858899105 * Co 11 * Xv 3 * Xv 2 + 0.3061862178478971 * Co 3 * Xv 2 +
   12.05608232776094 * Co 335 * (Xo (Xv 3 * Xv 4 * Xv 0 * Xv 1) (4 - 0.8571428571428571 * (Xo (Xv 3 * Xv 4 * Xv 0
   * Xv 1) (2 - 0.3333333333333333 * Xv 3 * Xv 4 * Xv 0)) - 0.2 * Xv 3 * Xv 4 * Xv 0)) + 6.960582377305072 * Co
   295 * (Xo (Xv 4 * Xv 0 * Xv 1) (4 - 0.8571428571428571 * (Xo (Xv 4 * Xv 0 * Xv 1) (2 - 0.3333333333333333 * Xv
   4 * Xv 0)) - 0.2 * Xv 4 * Xv 0)) + 6.960582377305072 * Co 286 * (Xo (Xv 3 * Xv 0 * Xv 1) (4 -
   0.8571428571428571 * (Xo (Xv 3 * Xv 0 * Xv 1) (2 - 0.3333333333333333 * Xv 3 * Xv 0)) - 0.2 * Xv 3 * Xv 0)) +
   4.018694109253648 * Co 208 * (Xo (Xv 0 * Xv 1) (4 - 0.8571428571428571 * (Xo (Xv 0 * Xv 1) (2 -
   0.3333333333333333 * Xv 0)) - 0.2 * Xv 0)) + 6.960582377305072 * Co 301 * (Xo (Xv 3 * Xv 4 * Xv 1) (4 -
   0.8571428571428571 * (Xo (Xv 3 * Xv 4 * Xv 1) (2 - 0.3333333333333333 * Xv 3 * Xv 4)) - 0.2 * Xv 3 * Xv 4)) +
   4.018694109253648 * Co 220 * (Xo (Xv 4 * Xv 1) (4 - 0.8571428571428571 * (Xo (Xv 4 * Xv 1) (2 -
   0.3333333333333333 * Xv 4)) - 0.2 * Xv 4)) + 4.018694109253648 * Co 214 * (Xo (Xv 3 * Xv 1) (4 -
   0.8571428571428571 * (Xo (Xv 3 * Xv 1) (2 - 0.3333333333333333 * Xv 3)) - 0.2 * Xv 3)) + 2.320194125768357 *
   Co 122 * (Xo (Xv 1) (4 - 0.8571428571428571 * (Xo (Xv 1) (2 - 0.3333333333333333)) - 0.2)) + 6.075694404757366
   * Co 270 * (Xo (Xv 3 * Xv 4 * Xv 0 * Xv 1) (3 - 0.6 * Xv 3 * Xv 4 * Xv 0 * Xv 1)) + 3.507803800100568 * Co 190
   * (Xo (Xv 4 * Xv 0 * Xv 1) (3 - 0.6 * Xv 4 * Xv 0 * Xv 1)) + 3.507803800100568 * Co 181 * (Xo (Xv 3 * Xv 0 *
   Xv 1) (3 - 0.6 * Xv 3 * Xv 0 * Xv 1)) + 2.025231468252455 * Co 102 * (Xo (Xv 0 * Xv 1) (3 - 0.6 * Xv 0 * Xv
   1)) + 3.507803800100568 * Co 196 * (Xo (Xv 3 * Xv 4 * Xv 1) (3 - 0.6 * Xv 3 * Xv 4 * Xv 1)) +
   2.025231468252455 * Co 114 * (Xo (Xv 4 * Xv 1) (3 - 0.6 * Xv 4 * Xv 1)) + 2.025231468252455 * Co 108 * (Xo (Xv
   3 * Xv 1) (3 - 0.6 * Xv 3 * Xv 1)) + 1.169267933366856 * Co 52 * (Xo (Xv 1) (3 - 0.6 * Xv 1)) +
   5.966213466261491 * Co 245 * 5.966213466261491 * Co 254 * 3.444594950788841 * Co 166 * 3.444594950788841 * Co
   154 * 5.966213466261491 * Co 241 * 3.444594950788841 * Co 159 * 3.444594950788841 * Co 163 * 3.444594950788841
   * Co 150 * 3.444594950788841 * Co 172 * 1.988737822087164 * Co 91 * 3.080939385966558 * Co 135 * (Xo (Xv 3 *
   Xv 4 * Xv 0 * Xv 1) (2 - 0.3333333333333333 * Xv 3 * Xv 4 * Xv 0)) + 1.778781183844713 * Co 74 * (Xo (Xv 4 *
   Xv 0 * Xv 1) (2 - 0.3333333333333333 * Xv 4 * Xv 0)) + 1.778781183844713 * Co 65 * (Xo (Xv 3 * Xv 0 * Xv 1) (2
   - 0.3333333333333333 * Xv 3 * Xv 0)) + 1.026979795322186 * Co 32 * (Xo (Xv 0 * Xv 1) (2 - 0.3333333333333333 *
   Xv 0)) + 1.988737822087164 * Co 98 * 1.778781183844713 * Co 80 * (Xo (Xv 3 * Xv 4 * Xv 1) (2 -
   0.3333333333333333 * Xv 3 * Xv 4)) + 1.026979795322186 * Co 44 * (Xo (Xv 4 * Xv 1) (2 - 0.3333333333333333 *
   Xv 4)) + 1.988737822087164 * Co 95 * 1.026979795322186 * Co 38 * (Xo (Xv 3 * Xv 1) (2 - 0.3333333333333333 *
   Xv 3)) + 0.592927061281571 * Co 17 * (Xo (Xv 1) (2 - 0.3333333333333333)) + 12.05608232776094 * Co 334 * (Xo
   ((Ng (0.8571428571428571)) * (Xo (Xv 3 * Xv 4 * Xv 0) (2 * Xv 1 - 0.3333333333333333 * Xv 3 * Xv 4 * Xv 1)) +
   Xv 3 * Xv 4 * Xv 0) (4 * Xv 1 - 0.2 * Xv 3 * Xv 4 * Xv 1)) + 5.966213466261491 * Co 244 * 6.960582377305072 *
   Co 294 * (Xo ((Ng (0.8571428571428571)) * (Xo (Xv 4 * Xv 0) (2 * Xv 1 - 0.3333333333333333 * Xv 4 * Xv 1)) +
   Xv 4 * Xv 0) (4 * Xv 1 - 0.2 * Xv 4 * Xv 1)) + 5.966213466261491 * Co 253 * 6.960582377305072 * Co 285 * (Xo
   ((Ng (0.8571428571428571)) * (Xo (Xv 3 * Xv 0) (2 * Xv 1 - 0.3333333333333333 * Xv 3 * Xv 1)) + Xv 3 * Xv 0)
   (4 * Xv 1 - 0.2 * Xv 3 * Xv 1)) + 3.444594950788841 * Co 165 * 3.444594950788841 * Co 153 * 4.018694109253648
   * Co 207 * (Xo ((Ng (0.8571428571428571)) * (Xo (Xv 0) (2 * Xv 1 - 0.3333333333333333 * Xv 1)) + Xv 0) (4 * Xv
   1 - 0.2 * Xv 1)) + 12.05608232776094 * Co 344 * (Xo ((Ng (0.8571428571428571)) * (Xo (Xv 3 * Xv 4) (2 * Xv 0 *
   Xv 1 - 0.3333333333333333 * Xv 3 * Xv 0 * Xv 1)) + Xv 3 * Xv 4) (4 * Xv 0 * Xv 1 - 0.2 * Xv 3 * Xv 0 * Xv 1))
   + 5.966213466261491 * Co 259 * 6.960582377305072 * Co 306 * (Xo ((Ng (0.8571428571428571)) * (Xo (Xv 4) (2 *
   Xv 0 * Xv 1 - 0.3333333333333333 * Xv 0 * Xv 1)) + Xv 4) (4 * Xv 0 * Xv 1 - 0.2 * Xv 0 * Xv 1)) +
   12.05608232776094 * Co 340 * (Xo ((Ng (0.8571428571428571)) * (Xo (Xv 3) (2 * Xv 4 * Xv 0 * Xv 1 -
   0.3333333333333333 * Xv 4 * Xv 0 * Xv 1)) + Xv 3) (4 * Xv 4 * Xv 0 * Xv 1 - 0.2 * Xv 4 * Xv 0 * Xv 1)) +
   6.960582377305072 * Co 291 * (Xo ((Ng (0.8571428571428571)) * (Xo (Xv 3) (2 * Xv 0 * Xv 1 - 0.3333333333333333
   * Xv 0 * Xv 1)) + Xv 3) (4 * Xv 0 * Xv 1 - 0.2 * Xv 0 * Xv 1)) + 6.960582377305072 * Co 310 * (Xo ((Ng
   (0.8571428571428571)) * (Xo (Xv 3 * Xv 4) (2 * Xv 1 - 0.3333333333333333 * Xv 3 * Xv 1)) + Xv 3 * Xv 4) (4 *
   Xv 1 - 0.2 * Xv 3 * Xv 1)) + 3.444594950788841 * Co 175 * 4.018694109253648 * Co 224 * (Xo ((Ng
   (0.8571428571428571)) * (Xo (Xv 4) (2 * Xv 1 - 0.3333333333333333 * Xv 1)) + Xv 4) (4 * Xv 1 - 0.2 * Xv 1)) +
   6.960582377305072 * Co 304 * (Xo ((Ng (0.8571428571428571)) * (Xo (Xv 3) (2 * Xv 4 * Xv 1 - 0.3333333333333333
   * Xv 4 * Xv 1)) + Xv 3) (4 * Xv 4 * Xv 1 - 0.2 * Xv 4 * Xv 1)) + 4.018694109253648 * Co 217 * (Xo ((Ng
   (0.8571428571428571)) * (Xo (Xv 3) (2 * Xv 1 - 0.3333333333333333 * Xv 1)) + Xv 3) (4 * Xv 1 - 0.2 * Xv 1)) +
   6.075694404757366 * Co 269 * (Xo (Xv 3 * Xv 4 * Xv 0) (3 * Xv 1 - 0.6 * Xv 3 * Xv 4 * Xv 0 * Xv 1)) +
   3.507803800100568 * Co 189 * (Xo (Xv 4 * Xv 0) (3 * Xv 1 - 0.6 * Xv 4 * Xv 0 * Xv 1)) + 3.507803800100568 * Co
   180 * (Xo (Xv 3 * Xv 0) (3 * Xv 1 - 0.6 * Xv 3 * Xv 0 * Xv 1)) + 2.025231468252455 * Co 101 * (Xo (Xv 0) (3 *
   Xv 1 - 0.6 * Xv 0 * Xv 1)) + 3.080939385966558 * Co 134 * (Xo (Xv 3 * Xv 4 * Xv 0) (2 * Xv 1 -
   0.3333333333333333 * Xv 3 * Xv 4 * Xv 1)) + 1.778781183844713 * Co 73 * (Xo (Xv 4 * Xv 0) (2 * Xv 1 -
   0.3333333333333333 * Xv 4 * Xv 1)) + 1.778781183844713 * Co 64 * (Xo (Xv 3 * Xv 0) (2 * Xv 1 -
   0.3333333333333333 * Xv 3 * Xv 1)) + 1.026979795322186 * Co 31 * (Xo (Xv 0) (2 * Xv 1 - 0.3333333333333333 *
   Xv 1)) + 6.075694404757366 * Co 279 * (Xo (Xv 3 * Xv 4) (3 * Xv 0 * Xv 1 - 0.6 * Xv 3 * Xv 4 * Xv 0 * Xv 1)) +
   3.507803800100568 * Co 201 * (Xo (Xv 4) (3 * Xv 0 * Xv 1 - 0.6 * Xv 4 * Xv 0 * Xv 1)) + 3.080939385966558 * Co
   144 * (Xo (Xv 3 * Xv 4) (2 * Xv 0 * Xv 1 - 0.3333333333333333 * Xv 3 * Xv 0 * Xv 1)) + 1.778781183844713 * Co
   85 * (Xo (Xv 4) (2 * Xv 0 * Xv 1 - 0.3333333333333333 * Xv 0 * Xv 1)) + 6.075694404757366 * Co 275 * (Xo (Xv
   3) (3 * Xv 4 * Xv 0 * Xv 1 - 0.6 * Xv 3 * Xv 4 * Xv 0 * Xv 1)) + 3.080939385966558 * Co 140 * (Xo (Xv 3) (2 *
   Xv 4 * Xv 0 * Xv 1 - 0.3333333333333333 * Xv 4 * Xv 0 * Xv 1)) + 3.507803800100568 * Co 186 * (Xo (Xv 3) (3 *
   Xv 0 * Xv 1 - 0.6 * Xv 3 * Xv 0 * Xv 1)) + 1.778781183844713 * Co 70 * (Xo (Xv 3) (2 * Xv 0 * Xv 1 -
   0.3333333333333333 * Xv 0 * Xv 1)) + 3.507803800100568 * Co 205 * (Xo (Xv 3 * Xv 4) (3 * Xv 1 - 0.6 * Xv 3 *
   Xv 4 * Xv 1)) + 2.025231468252455 * Co 118 * (Xo (Xv 4) (3 * Xv 1 - 0.6 * Xv 4 * Xv 1)) + 1.778781183844713 *
   Co 89 * (Xo (Xv 3 * Xv 4) (2 * Xv 1 - 0.3333333333333333 * Xv 3 * Xv 1)) + 1.026979795322186 * Co 48 * (Xo (Xv
   4) (2 * Xv 1 - 0.3333333333333333 * Xv 1)) + 3.507803800100568 * Co 199 * (Xo (Xv 3) (3 * Xv 4 * Xv 1 - 0.6 *
   Xv 3 * Xv 4 * Xv 1)) + 1.778781183844713 * Co 83 * (Xo (Xv 3) (2 * Xv 4 * Xv 1 - 0.3333333333333333 * Xv 4 *
   Xv 1)) + 2.025231468252455 * Co 111 * (Xo (Xv 3) (3 * Xv 1 - 0.6 * Xv 3 * Xv 1)) + 1.026979795322186 * Co 41 *
   (Xo (Xv 3) (2 * Xv 1 - 0.3333333333333333 * Xv 1)) + 1.590990257669731 * Co 58 * Xv 3 * Xv 4 * Xv 0 * Xv 1 +
   0.9185586535436913 * Co 25 * Xv 4 * Xv 0 * Xv 1 + 0.9185586535436913 * Co 22 * Xv 3 * Xv 0 * Xv 1 +
   0.5303300858899105 * Co 6 * Xv 0 * Xv 1 + 0.9185586535436913 * Co 29 * Xv 3 * Xv 4 * Xv 1 + 0.5303300858899105
   * Co 13 * Xv 4 * Xv 1 + 0.5303300858899105 * Co 10 * Xv 3 * Xv 1 + 0.3061862178478971 * Co 2 * Xv 1 +
   6.960582377305072 * Co 300 * (Xo (Xv 3 * Xv 4 * Xv 0) (4 - 0.8571428571428571 * (Xo (Xv 3 * Xv 4 * Xv 0) (2 -
   0.3333333333333333 * Xv 3 * Xv 4)) - 0.2 * Xv 3 * Xv 4)) + 4.018694109253648 * Co 219 * (Xo (Xv 4 * Xv 0) (4 -
   0.8571428571428571 * (Xo (Xv 4 * Xv 0) (2 - 0.3333333333333333 * Xv 4)) - 0.2 * Xv 4)) + 4.018694109253648 *
   Co 213 * (Xo (Xv 3 * Xv 0) (4 - 0.8571428571428571 * (Xo (Xv 3 * Xv 0) (2 - 0.3333333333333333 * Xv 3)) - 0.2
   * Xv 3)) + 2.320194125768357 * Co 121 * (Xo (Xv 0) (4 - 0.8571428571428571 * (Xo (Xv 0) (2 -
   0.3333333333333333)) - 0.2)) + 3.507803800100568 * Co 195 * (Xo (Xv 3 * Xv 4 * Xv 0) (3 - 0.6 * Xv 3 * Xv 4 *
   Xv 0)) + 2.025231468252455 * Co 113 * (Xo (Xv 4 * Xv 0) (3 - 0.6 * Xv 4 * Xv 0)) + 2.025231468252455 * Co 107
   * (Xo (Xv 3 * Xv 0) (3 - 0.6 * Xv 3 * Xv 0)) + 1.169267933366856 * Co 51 * (Xo (Xv 0) (3 - 0.6 * Xv 0)) +
   3.444594950788841 * Co 162 * 3.444594950788841 * Co 171 * 1.988737822087164 * Co 97 * 1.778781183844713 * Co
   79 * (Xo (Xv 3 * Xv 4 * Xv 0) (2 - 0.3333333333333333 * Xv 3 * Xv 4)) + 1.026979795322186 * Co 43 * (Xo (Xv 4
   * Xv 0) (2 - 0.3333333333333333 * Xv 4)) + 1.988737822087164 * Co 94 * 1.026979795322186 * Co 37 * (Xo (Xv 3 *
   Xv 0) (2 - 0.3333333333333333 * Xv 3)) + 0.592927061281571 * Co 16 * (Xo (Xv 0) (2 - 0.3333333333333333)) +
   6.960582377305072 * Co 309 * (Xo ((Ng (0.8571428571428571)) * (Xo (Xv 3 * Xv 4) (2 * Xv 0 - 0.3333333333333333
   * Xv 3 * Xv 0)) + Xv 3 * Xv 4) (4 * Xv 0 - 0.2 * Xv 3 * Xv 0)) + 3.444594950788841 * Co 174 *
   4.018694109253648 * Co 223 * (Xo ((Ng (0.8571428571428571)) * (Xo (Xv 4) (2 * Xv 0 - 0.3333333333333333 * Xv
   0)) + Xv 4) (4 * Xv 0 - 0.2 * Xv 0)) + 6.960582377305072 * Co 303 * (Xo ((Ng (0.8571428571428571)) * (Xo (Xv
   3) (2 * Xv 4 * Xv 0 - 0.3333333333333333 * Xv 4 * Xv 0)) + Xv 3) (4 * Xv 4 * Xv 0 - 0.2 * Xv 4 * Xv 0)) +
   4.018694109253648 * Co 216 * (Xo ((Ng (0.8571428571428571)) * (Xo (Xv 3) (2 * Xv 0 - 0.3333333333333333 * Xv
   0)) + Xv 3) (4 * Xv 0 - 0.2 * Xv 0)) + 3.507803800100568 * Co 204 * (Xo (Xv 3 * Xv 4) (3 * Xv 0 - 0.6 * Xv 3 *
   Xv 4 * Xv 0)) + 2.025231468252455 * Co 117 * (Xo (Xv 4) (3 * Xv 0 - 0.6 * Xv 4 * Xv 0)) + 1.778781183844713 *
   Co 88 * (Xo (Xv 3 * Xv 4) (2 * Xv 0 - 0.3333333333333333 * Xv 3 * Xv 0)) + 1.026979795322186 * Co 47 * (Xo (Xv
   4) (2 * Xv 0 - 0.3333333333333333 * Xv 0)) + 3.507803800100568 * Co 198 * (Xo (Xv 3) (3 * Xv 4 * Xv 0 - 0.6 *
   Xv 3 * Xv 4 * Xv 0)) + 1.778781183844713 * Co 82 * (Xo (Xv 3) (2 * Xv 4 * Xv 0 - 0.3333333333333333 * Xv 4 *
   Xv 0)) + 2.025231468252455 * Co 110 * (Xo (Xv 3) (3 * Xv 0 - 0.6 * Xv 3 * Xv 0)) + 1.026979795322186 * Co 40 *
   (Xo (Xv 3) (2 * Xv 0 - 0.3333333333333333 * Xv 0)) + 0.9185586535436913 * Co 28 * Xv 3 * Xv 4 * Xv 0 +
   0.5303300858899105 * Co 12 * Xv 4 * Xv 0 + 0.5303300858899105 * Co 9 * Xv 3 * Xv 0 + 0.3061862178478971 * Co 1
   * Xv 0 + 4.018694109253648 * Co 226 * (Xo (Xv 3 * Xv 4) (4 - 0.8571428571428571 * (Xo (Xv 3 * Xv 4) (2 -
   0.3333333333333333 * Xv 3)) - 0.2 * Xv 3)) + 2.320194125768357 * Co 125 * (Xo (Xv 4) (4 - 0.8571428571428571 *
   (Xo (Xv 4) (2 - 0.3333333333333333)) - 0.2)) + 2.025231468252455 * Co 120 * (Xo (Xv 3 * Xv 4) (3 - 0.6 * Xv 3
   * Xv 4)) + 1.169267933366856 * Co 55 * (Xo (Xv 4) (3 - 0.6 * Xv 4)) + 1.988737822087164 * Co 100 *
   1.026979795322186 * Co 50 * (Xo (Xv 3 * Xv 4) (2 - 0.3333333333333333 * Xv 3)) + 0.592927061281571 * Co 20 *
   (Xo (Xv 4) (2 - 0.3333333333333333)) + 4.018694109253648 * Co 222 * (Xo ((Ng (0.8571428571428571)) * (Xo (Xv
   3) (2 * Xv 4 - 0.3333333333333333 * Xv 4)) + Xv 3) (4 * Xv 4 - 0.2 * Xv 4)) + 2.025231468252455 * Co 116 * (Xo
   (Xv 3) (3 * Xv 4 - 0.6 * Xv 3 * Xv 4)) + 1.026979795322186 * Co 46 * (Xo (Xv 3) (2 * Xv 4 - 0.3333333333333333
   * Xv 4)) + 0.5303300858899105 * Co 15 * Xv 3 * Xv 4 + 0.3061862178478971 * Co 5 * Xv 4 + 2.320194125768357 *
   Co 124 * (Xo (Xv 3) (4 - 0.8571428571428571 * (Xo (Xv 3) (2 - 0.3333333333333333)) - 0.2)) + 1.169267933366856
   * Co 54 * (Xo (Xv 3) (3 - 0.6 * Xv 3)) + 0.592927061281571 * Co 19 * (Xo (Xv 3) (2 - 0.3333333333333333)) +
   0.3061862178478971 * Co 4 * Xv 3 + 0.1767766952966368 * Co 0)%kexp.

(** expand6d.py 1-67. *)
Definition kt_6d1p : option kexp := Some (
   3.375 * Co 63 * Xv 3 * Xv 4 * Xv 5 * Xv 0 * Xv 1 * Xv 2 + 1.948557158514986 * Co 59 * Xv 4 * Xv 5 * Xv 0 * Xv
   1 * Xv 2 + 1.948557158514986 * Co 58 * Xv 3 * Xv 5 * Xv 0 * Xv 1 * Xv 2 + 1.125 * Co 47 * Xv 5 * Xv 0 * Xv 1 *
   Xv 2 + 1.948557158514986 * Co 57 * Xv 3 * Xv 4 * Xv 0 * Xv 1 * Xv 2 + 1.125 * Co 43 * Xv 4 * Xv 0 * Xv 1 * Xv
   2 + 1.125 * Co 42 * Xv 3 * Xv 0 * Xv 1 * Xv 2 + 0.6495190528383289 * Co 22 * Xv 0 * Xv 1 * Xv 2 +
   1.948557158514986 * Co 62 * Xv 3 * Xv 4 * Xv 5 * Xv 1 * Xv 2 + 1.125 * Co 53 * Xv 4 * Xv 5 * Xv 1 * Xv 2 +
   1.125 * Co 50 * Xv 3 * Xv 5 * Xv 1 * Xv 2 + 0.6495190528383289 * Co 34 * Xv 5 * Xv 1 * Xv 2 + 1.125 * Co 46 *
   Xv 3 * Xv 4 * Xv 1 * Xv 2 + 0.6495190528383289 * Co 28 * Xv 4 * Xv 1 * Xv 2 + 0.6495190528383289 * Co 25 * Xv
   3 * Xv 1 * Xv 2 + 0.375 * Co 9 * Xv 1 * Xv 2 + 1.948557158514986 * Co 61 * Xv 3 * Xv 4 * Xv 5 * Xv 0 * Xv 2 +
   1.125 * Co 52 * Xv 4 * Xv 5 * Xv 0 * Xv 2 + 1.125 * Co 49 * Xv 3 * Xv 5 * Xv 0 * Xv 2 + 0.6495190528383289 *
   Co 33 * Xv 5 * Xv 0 * Xv 2 + 1.125 * Co 45 * Xv 3 * Xv 4 * Xv 0 * Xv 2 + 0.6495190528383289 * Co 27 * Xv 4 *
   Xv 0 * Xv 2 + 0.6495190528383289 * Co 24 * Xv 3 * Xv 0 * Xv 2 + 0.375 * Co 8 * Xv 0 * Xv 2 + 1.125 * Co 56 *
   Xv 3 * Xv 4 * Xv 5 * Xv 2 + 0.6495190528383289 * Co 40 * Xv 4 * Xv 5 * Xv 2 + 0.6495190528383289 * Co 37 * Xv
   3 * Xv 5 * Xv 2 + 0.375 * Co 19 * Xv 5 * Xv 2 + 0.6495190528383289 * Co 31 * Xv 3 * Xv 4 * Xv 2 + 0.375 * Co
   15 * Xv 4 * Xv 2 + 0.375 * Co 12 * Xv 3 * Xv 2 + 0.2165063509461096 * Co 3 * Xv 2 + 1.948557158514986 * Co 60
   * Xv 3 * Xv 4 * Xv 5 * Xv 0 * Xv 1 + 1.125 * Co 51 * Xv 4 * Xv 5 * Xv 0 * Xv 1 + 1.125 * Co 48 * Xv 3 * Xv 5 *
   Xv 0 * Xv 1 + 0.6495190528383289 * Co 32 * Xv 5 * Xv 0 * Xv 1 + 1.125 * Co 44 * Xv 3 * Xv 4 * Xv 0 * Xv 1 +
   0.6495190528383289 * Co 26 * Xv 4 * Xv 0 * Xv 1 + 0.6495190528383289 * Co 23 * Xv 3 * Xv 0 * Xv 1 + 0.375 * Co
   7 * Xv 0 * Xv 1 + 1.125 * Co 55 * Xv 3 * Xv 4 * Xv 5 * Xv 1 + 0.6495190528383289 * Co 39 * Xv 4 * Xv 5 * Xv 1
   + 0.6495190528383289 * Co 36 * Xv 3 * Xv 5 * Xv 1 + 0.375 * Co 18 * Xv 5 * Xv 1 + 0.6495190528383289 * Co 30 *
   Xv 3 * Xv 4 * Xv 1 + 0.375 * Co 14 * Xv 4 * Xv 1 + 0.375 * Co 11 * Xv 3 * Xv 1 + 0.2165063509461096 * Co 2 *
   Xv 1 + 1.125 * Co 54 * Xv 3 * Xv 4 * Xv 5 * Xv 0 + 0.6495190528383289 * Co 38 * Xv 4 * Xv 5 * Xv 0 +
   0.6495190528383289 * Co 35 * Xv 3 * Xv 5 * Xv 0 + 0.375 * Co 17 * Xv 5 * Xv 0 + 0.6495190528383289 * Co 29 *
   Xv 3 * Xv 4 * Xv 0 + 0.375 * Co 13 * Xv 4 * Xv 0 + 0.375 * Co 10 * Xv 3 * Xv 0 + 0.2165063509461096 * Co 1 *
   Xv 0 + 0.6495190528383289 * Co 41 * Xv 3 * Xv 4 * Xv 5 + 0.375 * Co 21 * Xv 4 * Xv 5 + 0.375 * Co 20 * Xv 3 *
   Xv 5 + 0.2165063509461096 * Co 6 * Xv 5 + 0.375 * Co 16 * Xv 3 * Xv 4 + 0.2165063509461096 * Co 5 * Xv 4 +
   0.2165063509461096 * Co 4 * Xv 3 + 0.125 * Co 0)%kexp.

(** expand6d.py 73-583. *)
Definition kt_6d2p : option kexp := Some (
   6.535659396725016 * Co 252 * (Xo (Xv 3 * Xv 4 * Xv 5 * Xv 0 * Xv 1 * Xv 2) (2 - 0.3333333333333333 * Xv 3 * Xv
   4 * Xv 5 * Xv 0 * Xv 1)) + 3.773364712030896 * Co 231 * (Xo (Xv 4 * Xv 5 * Xv 0 * Xv 1 * Xv 2) (2 -
   0.3333333333333333 * Xv 4 * Xv 5 * Xv 0 * Xv 1)) + 3.773364712030896 * Co 227 * (Xo (Xv 3 * Xv 5 * Xv 0 * Xv 1
   * Xv 2) (2 - 0.3333333333333333 * Xv 3 * Xv 5 * Xv 0 * Xv 1)) + 2.178553132241672 * Co 181 * (Xo (Xv 5 * Xv 0
   * Xv 1 * Xv 2) (2 - 0.3333333333333333 * Xv 5 * Xv 0 * Xv 1)) + 3.773364712030896 * Co 222 * (Xo (Xv 3 * Xv 4
   * Xv 0 * Xv 1 * Xv 2) (2 - 0.3333333333333333 * Xv 3 * Xv 4 * Xv 0 * Xv 1)) + 2.178553132241672 * Co 165 * (Xo
   (Xv 4 * Xv 0 * Xv 1 * Xv 2) (2 - 0.3333333333333333 * Xv 4 * Xv 0 * Xv 1)) + 2.178553132241672 * Co 161 * (Xo
   (Xv 3 * Xv 0 * Xv 1 * Xv 2) (2 - 0.3333333333333333 * Xv 3 * Xv 0 * Xv 1)) + 1.257788237343632 * Co 95 * (Xo
   (Xv 0 * Xv 1 * Xv 2) (2 - 0.3333333333333333 * Xv 0 * Xv 1)) + 3.773364712030896 * Co 237 * (Xo (Xv 3 * Xv 4 *
   Xv 5 * Xv 1 * Xv 2) (2 - 0.3333333333333333 * Xv 3 * Xv 4 * Xv 5 * Xv 1)) + 2.178553132241672 * Co 196 * (Xo
   (Xv 4 * Xv 5 * Xv 1 * Xv 2) (2 - 0.3333333333333333 * Xv 4 * Xv 5 * Xv 1)) + 2.178553132241672 * Co 187 * (Xo
   (Xv 3 * Xv 5 * Xv 1 * Xv 2) (2 - 0.3333333333333333 * Xv 3 * Xv 5 * Xv 1)) + 1.257788237343632 * Co 128 * (Xo
   (Xv 5 * Xv 1 * Xv 2) (2 - 0.3333333333333333 * Xv 5 * Xv 1)) + 2.178553132241672 * Co 171 * (Xo (Xv 3 * Xv 4 *
   Xv 1 * Xv 2) (2 - 0.3333333333333333 * Xv 3 * Xv 4 * Xv 1)) + 1.257788237343632 * Co 110 * (Xo (Xv 4 * Xv 1 *
   Xv 2) (2 - 0.3333333333333333 * Xv 4 * Xv 1)) + 1.257788237343632 * Co 101 * (Xo (Xv 3 * Xv 1 * Xv 2) (2 -
   0.3333333333333333 * Xv 3 * Xv 1)) + 0.7261843774138907 * Co 53 * (Xo (Xv 1 * Xv 2) (2 - 0.3333333333333333 *
   Xv 1)) + 3.773364712030896 * Co 236 * (Xo (Xv 3 * Xv 4 * Xv 5 * Xv 0 * Xv 2) (2 - 0.3333333333333333 * Xv 3 *
   Xv 4 * Xv 5 * Xv 0)) + 2.178553132241672 * Co 195 * (Xo (Xv 4 * Xv 5 * Xv 0 * Xv 2) (2 - 0.3333333333333333 *
   Xv 4 * Xv 5 * Xv 0)) + 2.178553132241672 * Co 186 * (Xo (Xv 3 * Xv 5 * Xv 0 * Xv 2) (2 - 0.3333333333333333 *
   Xv 3 * Xv 5 * Xv 0)) + 1.257788237343632 * Co 127 * (Xo (Xv 5 * Xv 0 * Xv 2) (2 - 0.3333333333333333 * Xv 5 *
   Xv 0)) + 2.178553132241672 * Co 170 * (Xo (Xv 3 * Xv 4 * Xv 0 * Xv 2) (2 - 0.3333333333333333 * Xv 3 * Xv 4 *
   Xv 0)) + 1.257788237343632 * Co 109 * (Xo (Xv 4 * Xv 0 * Xv 2) (2 - 0.3333333333333333 * Xv 4 * Xv 0)) +
   1.257788237343632 * Co 100 * (Xo (Xv 3 * Xv 0 * Xv 2) (2 - 0.3333333333333333 * Xv 3 * Xv 0)) +
   0.7261843774138907 * Co 52 * (Xo (Xv 0 * Xv 2) (2 - 0.3333333333333333 * Xv 0)) + 2.178553132241672 * Co 199 *
   (Xo (Xv 3 * Xv 4 * Xv 5 * Xv 2) (2 - 0.3333333333333333 * Xv 3 * Xv 4 * Xv 5)) + 1.257788237343632 * Co 137 *
   (Xo (Xv 4 * Xv 5 * Xv 2) (2 - 0.3333333333333333 * Xv 4 * Xv 5)) + 1.257788237343632 * Co 131 * (Xo (Xv 3 * Xv
   5 * Xv 2) (2 - 0.3333333333333333 * Xv 3 * Xv 5)) + 0.7261843774138907 * Co 70 * (Xo (Xv 5 * Xv 2) (2 -
   0.3333333333333333 * Xv 5)) + 1.257788237343632 * Co 113 * (Xo (Xv 3 * Xv 4 * Xv 2) (2 - 0.3333333333333333 *
   Xv 3 * Xv 4)) + 0.7261843774138907 * Co 62 * (Xo (Xv 4 * Xv 2) (2 - 0.3333333333333333 * Xv 4)) +
   0.7261843774138907 * Co 56 * (Xo (Xv 3 * Xv 2) (2 - 0.3333333333333333 * Xv 3)) + 0.4192627457812106 * Co 24 *
   (Xo (Xv 2) (2 - 0.3333333333333333)) + 6.535659396725016 * Co 251 * (Xo (Xv 3 * Xv 4 * Xv 5 * Xv 0 * Xv 1) (2
   * Xv 2 - 0.3333333333333333 * Xv 3 * Xv 4 * Xv 5 * Xv 0 * Xv 2)) + 3.773364712030896 * Co 230 * (Xo (Xv 4 * Xv
   5 * Xv 0 * Xv 1) (2 * Xv 2 - 0.3333333333333333 * Xv 4 * Xv 5 * Xv 0 * Xv 2)) + 3.773364712030896 * Co 226 *
   (Xo (Xv 3 * Xv 5 * Xv 0 * Xv 1) (2 * Xv 2 - 0.3333333333333333 * Xv 3 * Xv 5 * Xv 0 * Xv 2)) +
   2.178553132241672 * Co 180 * (Xo (Xv 5 * Xv 0 * Xv 1) (2 * Xv 2 - 0.3333333333333333 * Xv 5 * Xv 0 * Xv 2)) +
   3.773364712030896 * Co 221 * (Xo (Xv 3 * Xv 4 * Xv 0 * Xv 1) (2 * Xv 2 - 0.3333333333333333 * Xv 3 * Xv 4 * Xv
   0 * Xv 2)) + 2.178553132241672 * Co 164 * (Xo (Xv 4 * Xv 0 * Xv 1) (2 * Xv 2 - 0.3333333333333333 * Xv 4 * Xv
   0 * Xv 2)) + 2.178553132241672 * Co 160 * (Xo (Xv 3 * Xv 0 * Xv 1) (2 * Xv 2 - 0.3333333333333333 * Xv 3 * Xv
   0 * Xv 2)) + 1.257788237343632 * Co 94 * (Xo (Xv 0 * Xv 1) (2 * Xv 2 - 0.3333333333333333 * Xv 0 * Xv 2)) +
   3.773364712030896 * Co 235 * (Xo (Xv 3 * Xv 4 * Xv 5 * Xv 1) (2 * Xv 2 - 0.3333333333333333 * Xv 3 * Xv 4 * Xv
   5 * Xv 2)) + 2.178553132241672 * Co 194 * (Xo (Xv 4 * Xv 5 * Xv 1) (2 * Xv 2 - 0.3333333333333333 * Xv 4 * Xv
   5 * Xv 2)) + 2.178553132241672 * Co 185 * (Xo (Xv 3 * Xv 5 * Xv 1) (2 * Xv 2 - 0.3333333333333333 * Xv 3 * Xv
   5 * Xv 2)) + 1.257788237343632 * Co 126 * (Xo (Xv 5 * Xv 1) (2 * Xv 2 - 0.3333333333333333 * Xv 5 * Xv 2)) +
   2.178553132241672 * Co 169 * (Xo (Xv 3 * Xv 4 * Xv 1) (2 * Xv 2 - 0.3333333333333333 * Xv 3 * Xv 4 * Xv 2)) +
   1.257788237343632 * Co 108 * (Xo (Xv 4 * Xv 1) (2 * Xv 2 - 0.3333333333333333 * Xv 4 * Xv 2)) +
   1.257788237343632 * Co 99 * (Xo (Xv 3 * Xv 1) (2 * Xv 2 - 0.3333333333333333 * Xv 3 * Xv 2)) +
   0.7261843774138907 * Co 51 * (Xo (Xv 1) (2 * Xv 2 - 0.3333333333333333 * Xv 2)) + 6.535659396725016 * Co 250 *
   (Xo (Xv 3 * Xv 4 * Xv 5 * Xv 0) (2 * Xv 1 * Xv 2 - 0.3333333333333333 * Xv 3 * Xv 4 * Xv 5 * Xv 1 * Xv 2)) +
   3.773364712030896 * Co 229 * (Xo (Xv 4 * Xv 5 * Xv 0) (2 * Xv 1 * Xv 2 - 0.3333333333333333 * Xv 4 * Xv 5 * Xv
   1 * Xv 2)) + 3.773364712030896 * Co 225 * (Xo (Xv 3 * Xv 5 * Xv 0) (2 * Xv 1 * Xv 2 - 0.3333333333333333 * Xv
   3 * Xv 5 * Xv 1 * Xv 2)) + 2.178553132241672 * Co 179 * (Xo (Xv 5 * Xv 0) (2 * Xv 1 * Xv 2 -
   0.3333333333333333 * Xv 5 * Xv 1 * Xv 2)) + 3.773364712030896 * Co 220 * (Xo (Xv 3 * Xv 4 * Xv 0) (2 * Xv 1 *
   Xv 2 - 0.3333333333333333 * Xv 3 * Xv 4 * Xv 1 * Xv 2)) + 2.178553132241672 * Co 163 * (Xo (Xv 4 * Xv 0) (2 *
   Xv 1 * Xv 2 - 0.3333333333333333 * Xv 4 * Xv 1 * Xv 2)) + 2.178553132241672 * Co 159 * (Xo (Xv 3 * Xv 0) (2 *
   Xv 1 * Xv 2 - 0.3333333333333333 * Xv 3 * Xv 1 * Xv 2)) + 1.257788237343632 * Co 93 * (Xo (Xv 0) (2 * Xv 1 *
   Xv 2 - 0.3333333333333333 * Xv 1 * Xv 2)) + 6.535659396725016 * Co 255 * (Xo (Xv 3 * Xv 4 * Xv 5) (2 * Xv 0 *
   Xv 1 * Xv 2 - 0.3333333333333333 * Xv 3 * Xv 4 * Xv 0 * Xv 1 * Xv 2)) + 3.773364712030896 * Co 246 * (Xo (Xv 4
   * Xv 5) (2 * Xv 0 * Xv 1 * Xv 2 - 0.3333333333333333 * Xv 4 * Xv 0 * Xv 1 * Xv 2)) + 3.773364712030896 * Co
   245 * (Xo (Xv 3 * Xv 5) (2 * Xv 0 * Xv 1 * Xv 2 - 0.3333333333333333 * Xv 3 * Xv 0 * Xv 1 * Xv 2)) +
   2.178553132241672 * Co 209 * (Xo (Xv 5) (2 * Xv 0 * Xv 1 * Xv 2 - 0.3333333333333333 * Xv 0 * Xv 1 * Xv 2)) +
   6.535659396725016 * Co 254 * (Xo (Xv 3 * Xv 4) (2 * Xv 5 * Xv 0 * Xv 1 * Xv 2 - 0.3333333333333333 * Xv 3 * Xv
   5 * Xv 0 * Xv 1 * Xv 2)) + 3.773364712030896 * Co 241 * (Xo (Xv 4) (2 * Xv 5 * Xv 0 * Xv 1 * Xv 2 -
   0.3333333333333333 * Xv 5 * Xv 0 * Xv 1 * Xv 2)) + 6.535659396725016 * Co 253 * (Xo (Xv 3) (2 * Xv 4 * Xv 5 *
   Xv 0 * Xv 1 * Xv 2 - 0.3333333333333333 * Xv 4 * Xv 5 * Xv 0 * Xv 1 * Xv 2)) + 3.773364712030896 * Co 228 *
   (Xo (Xv 3) (2 * Xv 5 * Xv 0 * Xv 1 * Xv 2 - 0.3333333333333333 * Xv 5 * Xv 0 * Xv 1 * Xv 2)) +
   3.773364712030896 * Co 224 * (Xo (Xv 3 * Xv 4) (2 * Xv 0 * Xv 1 * Xv 2 - 0.3333333333333333 * Xv 3 * Xv 0 * Xv
   1 * Xv 2)) + 2.178553132241672 * Co 175 * (Xo (Xv 4) (2 * Xv 0 * Xv 1 * Xv 2 - 0.3333333333333333 * Xv 0 * Xv
   1 * Xv 2)) + 3.773364712030896 * Co 223 * (Xo (Xv 3) (2 * Xv 4 * Xv 0 * Xv 1 * Xv 2 - 0.3333333333333333 * Xv
   4 * Xv 0 * Xv 1 * Xv 2)) + 2.178553132241672 * Co 162 * (Xo (Xv 3) (2 * Xv 0 * Xv 1 * Xv 2 -
   0.3333333333333333 * Xv 0 * Xv 1 * Xv 2)) + 3.773364712030896 * Co 249 * (Xo (Xv 3 * Xv 4 * Xv 5) (2 * Xv 1 *
   Xv 2 - 0.3333333333333333 * Xv 3 * Xv 4 * Xv 1 * Xv 2)) + 2.178553132241672 * Co 215 * (Xo (Xv 4 * Xv 5) (2 *
   Xv 1 * Xv 2 - 0.3333333333333333 * Xv 4 * Xv 1 * Xv 2)) + 2.178553132241672 * Co 212 * (Xo (Xv 3 * Xv 5) (2 *
   Xv 1 * Xv 2 - 0.3333333333333333 * Xv 3 * Xv 1 * Xv 2)) + 1.257788237343632 * Co 145 * (Xo (Xv 5) (2 * Xv 1 *
   Xv 2 - 0.3333333333333333 * Xv 1 * Xv 2)) + 3.773364712030896 * Co 244 * (Xo (Xv 3 * Xv 4) (2 * Xv 5 * Xv 1 *
   Xv 2 - 0.3333333333333333 * Xv 3 * Xv 5 * Xv 1 * Xv 2)) + 2.178553132241672 * Co 205 * (Xo (Xv 4) (2 * Xv 5 *
   Xv 1 * Xv 2 - 0.3333333333333333 * Xv 5 * Xv 1 * Xv 2)) + 3.773364712030896 * Co 240 * (Xo (Xv 3) (2 * Xv 4 *
   Xv 5 * Xv 1 * Xv 2 - 0.3333333333333333 * Xv 4 * Xv 5 * Xv 1 * Xv 2)) + 2.178553132241672 * Co 190 * (Xo (Xv
   3) (2 * Xv 5 * Xv 1 * Xv 2 - 0.3333333333333333 * Xv 5 * Xv 1 * Xv 2)) + 2.178553132241672 * Co 178 * (Xo (Xv
   3 * Xv 4) (2 * Xv 1 * Xv 2 - 0.3333333333333333 * Xv 3 * Xv 1 * Xv 2)) + 1.257788237343632 * Co 119 * (Xo (Xv
   4) (2 * Xv 1 * Xv 2 - 0.3333333333333333 * Xv 1 * Xv 2)) + 2.178553132241672 * Co 174 * (Xo (Xv 3) (2 * Xv 4 *
   Xv 1 * Xv 2 - 0.3333333333333333 * Xv 4 * Xv 1 * Xv 2)) + 1.257788237343632 * Co 104 * (Xo (Xv 3) (2 * Xv 1 *
   Xv 2 - 0.3333333333333333 * Xv 1 * Xv 2)) + 3.773364712030896 * Co 234 * (Xo (Xv 3 * Xv 4 * Xv 5 * Xv 0) (2 *
   Xv 2 - 0.3333333333333333 * Xv 3 * Xv 4 * Xv 5 * Xv 2)) + 2.178553132241672 * Co 193 * (Xo (Xv 4 * Xv 5 * Xv
   0) (2 * Xv 2 - 0.3333333333333333 * Xv 4 * Xv 5 * Xv 2)) + 2.178553132241672 * Co 184 * (Xo (Xv 3 * Xv 5 * Xv
   0) (2 * Xv 2 - 0.3333333333333333 * Xv 3 * Xv 5 * Xv 2)) + 1.257788237343632 * Co 125 * (Xo (Xv 5 * Xv 0) (2 *
   Xv 2 - 0.3333333333333333 * Xv 5 * Xv 2)) + 2.178553132241672 * Co 168 * (Xo (Xv 3 * Xv 4 * Xv 0) (2 * Xv 2 -
   0.3333333333333333 * Xv 3 * Xv 4 * Xv 2)) + 1.257788237343632 * Co 107 * (Xo (Xv 4 * Xv 0) (2 * Xv 2 -
   0.3333333333333333 * Xv 4 * Xv 2)) + 1.257788237343632 * Co 98 * (Xo (Xv 3 * Xv 0) (2 * Xv 2 -
   0.3333333333333333 * Xv 3 * Xv 2)) + 0.7261843774138907 * Co 50 * (Xo (Xv 0) (2 * Xv 2 - 0.3333333333333333 *
   Xv 2)) + 3.773364712030896 * Co 248 * (Xo (Xv 3 * Xv 4 * Xv 5) (2 * Xv 0 * Xv 2 - 0.3333333333333333 * Xv 3 *
   Xv 4 * Xv 0 * Xv 2)) + 2.178553132241672 * Co 214 * (Xo (Xv 4 * Xv 5) (2 * Xv 0 * Xv 2 - 0.3333333333333333 *
   Xv 4 * Xv 0 * Xv 2)) + 2.178553132241672 * Co 211 * (Xo (Xv 3 * Xv 5) (2 * Xv 0 * Xv 2 - 0.3333333333333333 *
   Xv 3 * Xv 0 * Xv 2)) + 1.257788237343632 * Co 144 * (Xo (Xv 5) (2 * Xv 0 * Xv 2 - 0.3333333333333333 * Xv 0 *
   Xv 2)) + 3.773364712030896 * Co 243 * (Xo (Xv 3 * Xv 4) (2 * Xv 5 * Xv 0 * Xv 2 - 0.3333333333333333 * Xv 3 *
   Xv 5 * Xv 0 * Xv 2)) + 2.178553132241672 * Co 204 * (Xo (Xv 4) (2 * Xv 5 * Xv 0 * Xv 2 - 0.3333333333333333 *
   Xv 5 * Xv 0 * Xv 2)) + 3.773364712030896 * Co 239 * (Xo (Xv 3) (2 * Xv 4 * Xv 5 * Xv 0 * Xv 2 -
   0.3333333333333333 * Xv 4 * Xv 5 * Xv 0 * Xv 2)) + 2.178553132241672 * Co 189 * (Xo (Xv 3) (2 * Xv 5 * Xv 0 *
   Xv 2 - 0.3333333333333333 * Xv 5 * Xv 0 * Xv 2)) + 2.178553132241672 * Co 177 * (Xo (Xv 3 * Xv 4) (2 * Xv 0 *
   Xv 2 - 0.3333333333333333 * Xv 3 * Xv 0 * Xv 2)) + 1.257788237343632 * Co 118 * (Xo (Xv 4) (2 * Xv 0 * Xv 2 -
   0.3333333333333333 * Xv 0 * Xv 2)) + 2.178553132241672 * Co 173 * (Xo (Xv 3) (2 * Xv 4 * Xv 0 * Xv 2 -
   0.3333333333333333 * Xv 4 * Xv 0 * Xv 2)) + 1.257788237343632 * Co 103 * (Xo (Xv 3) (2 * Xv 0 * Xv 2 -
   0.3333333333333333 * Xv 0 * Xv 2)) + 2.178553132241672 * Co 218 * (Xo (Xv 3 * Xv 4 * Xv 5) (2 * Xv 2 -
   0.3333333333333333 * Xv 3 * Xv 4 * Xv 2)) + 1.257788237343632 * Co 151 * (Xo (Xv 4 * Xv 5) (2 * Xv 2 -
   0.3333333333333333 * Xv 4 * Xv 2)) + 1.257788237343632 * Co 148 * (Xo (Xv 3 * Xv 5) (2 * Xv 2 -
   0.3333333333333333 * Xv 3 * Xv 2)) + 0.7261843774138907 * Co 75 * (Xo (Xv 5) (2 * Xv 2 - 0.3333333333333333 *
   Xv 2)) + 2.178553132241672 * Co 208 * (Xo (Xv 3 * Xv 4) (2 * Xv 5 * Xv 2 - 0.3333333333333333 * Xv 3 * Xv 5 *
   Xv 2)) + 1.257788237343632 * Co 141 * (Xo (Xv 4) (2 * Xv 5 * Xv 2 - 0.3333333333333333 * Xv 5 * Xv 2)) +
   2.178553132241672 * Co 202 * (Xo (Xv 3) (2 * Xv 4 * Xv 5 * Xv 2 - 0.3333333333333333 * Xv 4 * Xv 5 * Xv 2)) +
   1.257788237343632 * Co 134 * (Xo (Xv 3) (2 * Xv 5 * Xv 2 - 0.3333333333333333 * Xv 5 * Xv 2)) +
   1.257788237343632 * Co 122 * (Xo (Xv 3 * Xv 4) (2 * Xv 2 - 0.3333333333333333 * Xv 3 * Xv 2)) +
   0.7261843774138907 * Co 66 * (Xo (Xv 4) (2 * Xv 2 - 0.3333333333333333 * Xv 2)) + 1.257788237343632 * Co 116 *
   (Xo (Xv 3) (2 * Xv 4 * Xv 2 - 0.3333333333333333 * Xv 4 * Xv 2)) + 0.7261843774138907 * Co 59 * (Xo (Xv 3) (2
   * Xv 2 - 0.3333333333333333 * Xv 2)) + 3.375 * Co 219 * Xv 3 * Xv 4 * Xv 5 * Xv 0 * Xv 1 * Xv 2 +
   1.948557158514986 * Co 155 * Xv 4 * Xv 5 * Xv 0 * Xv 1 * Xv 2 + 1.948557158514986 * Co 154 * Xv 3 * Xv 5 * Xv
   0 * Xv 1 * Xv 2 + 1.125 * Co 83 * Xv 5 * Xv 0 * Xv 1 * Xv 2 + 1.948557158514986 * Co 153 * Xv 3 * Xv 4 * Xv 0
   * Xv 1 * Xv 2 + 1.125 * Co 79 * Xv 4 * Xv 0 * Xv 1 * Xv 2 + 1.125 * Co 78 * Xv 3 * Xv 0 * Xv 1 * Xv 2 +
   0.6495190528383289 * Co 28 * Xv 0 * Xv 1 * Xv 2 + 1.948557158514986 * Co 158 * Xv 3 * Xv 4 * Xv 5 * Xv 1 * Xv
   2 + 1.125 * Co 89 * Xv 4 * Xv 5 * Xv 1 * Xv 2 + 1.125 * Co 86 * Xv 3 * Xv 5 * Xv 1 * Xv 2 + 0.6495190528383289
   * Co 40 * Xv 5 * Xv 1 * Xv 2 + 1.125 * Co 82 * Xv 3 * Xv 4 * Xv 1 * Xv 2 + 0.6495190528383289 * Co 34 * Xv 4 *
   Xv 1 * Xv 2 + 0.6495190528383289 * Co 31 * Xv 3 * Xv 1 * Xv 2 + 0.375 * Co 9 * Xv 1 * Xv 2 + 1.948557158514986
   * Co 157 * Xv 3 * Xv 4 * Xv 5 * Xv 0 * Xv 2 + 1.125 * Co 88 * Xv 4 * Xv 5 * Xv 0 * Xv 2 + 1.125 * Co 85 * Xv 3
   * Xv 5 * Xv 0 * Xv 2 + 0.6495190528383289 * Co 39 * Xv 5 * Xv 0 * Xv 2 + 1.125 * Co 81 * Xv 3 * Xv 4 * Xv 0 *
   Xv 2 + 0.6495190528383289 * Co 33 * Xv 4 * Xv 0 * Xv 2 + 0.6495190528383289 * Co 30 * Xv 3 * Xv 0 * Xv 2 +
   0.375 * Co 8 * Xv 0 * Xv 2 + 1.125 * Co 92 * Xv 3 * Xv 4 * Xv 5 * Xv 2 + 0.6495190528383289 * Co 46 * Xv 4 *
   Xv 5 * Xv 2 + 0.6495190528383289 * Co 43 * Xv 3 * Xv 5 * Xv 2 + 0.375 * Co 19 * Xv 5 * Xv 2 +
   0.6495190528383289 * Co 37 * Xv 3 * Xv 4 * Xv 2 + 0.375 * Co 15 * Xv 4 * Xv 2 + 0.375 * Co 12 * Xv 3 * Xv 2 +
   0.2165063509461096 * Co 3 * Xv 2 + 3.773364712030896 * Co 233 * (Xo (Xv 3 * Xv 4 * Xv 5 * Xv 0 * Xv 1) (2 -
   0.3333333333333333 * Xv 3 * Xv 4 * Xv 5 * Xv 0)) + 2.178553132241672 * Co 192 * (Xo (Xv 4 * Xv 5 * Xv 0 * Xv
   1) (2 - 0.3333333333333333 * Xv 4 * Xv 5 * Xv 0)) + 2.178553132241672 * Co 183 * (Xo (Xv 3 * Xv 5 * Xv 0 * Xv
   1) (2 - 0.3333333333333333 * Xv 3 * Xv 5 * Xv 0)) + 1.257788237343632 * Co 124 * (Xo (Xv 5 * Xv 0 * Xv 1) (2 -
   0.3333333333333333 * Xv 5 * Xv 0)) + 2.178553132241672 * Co 167 * (Xo (Xv 3 * Xv 4 * Xv 0 * Xv 1) (2 -
   0.3333333333333333 * Xv 3 * Xv 4 * Xv 0)) + 1.257788237343632 * Co 106 * (Xo (Xv 4 * Xv 0 * Xv 1) (2 -
   0.3333333333333333 * Xv 4 * Xv 0)) + 1.257788237343632 * Co 97 * (Xo (Xv 3 * Xv 0 * Xv 1) (2 -
   0.3333333333333333 * Xv 3 * Xv 0)) + 0.7261843774138907 * Co 49 * (Xo (Xv 0 * Xv 1) (2 - 0.3333333333333333 *
   Xv 0)) + 2.178553132241672 * Co 198 * (Xo (Xv 3 * Xv 4 * Xv 5 * Xv 1) (2 - 0.3333333333333333 * Xv 3 * Xv 4 *
   Xv 5)) + 1.257788237343632 * Co 136 * (Xo (Xv 4 * Xv 5 * Xv 1) (2 - 0.3333333333333333 * Xv 4 * Xv 5)) +
   1.257788237343632 * Co 130 * (Xo (Xv 3 * Xv 5 * Xv 1) (2 - 0.3333333333333333 * Xv 3 * Xv 5)) +
   0.7261843774138907 * Co 69 * (Xo (Xv 5 * Xv 1) (2 - 0.3333333333333333 * Xv 5)) + 1.257788237343632 * Co 112 *
   (Xo (Xv 3 * Xv 4 * Xv 1) (2 - 0.3333333333333333 * Xv 3 * Xv 4)) + 0.7261843774138907 * Co 61 * (Xo (Xv 4 * Xv
   1) (2 - 0.3333333333333333 * Xv 4)) + 0.7261843774138907 * Co 55 * (Xo (Xv 3 * Xv 1) (2 - 0.3333333333333333 *
   Xv 3)) + 0.4192627457812106 * Co 23 * (Xo (Xv 1) (2 - 0.3333333333333333)) + 3.773364712030896 * Co 232 * (Xo
   (Xv 3 * Xv 4 * Xv 5 * Xv 0) (2 * Xv 1 - 0.3333333333333333 * Xv 3 * Xv 4 * Xv 5 * Xv 1)) + 2.178553132241672 *
   Co 191 * (Xo (Xv 4 * Xv 5 * Xv 0) (2 * Xv 1 - 0.3333333333333333 * Xv 4 * Xv 5 * Xv 1)) + 2.178553132241672 *
   Co 182 * (Xo (Xv 3 * Xv 5 * Xv 0) (2 * Xv 1 - 0.3333333333333333 * Xv 3 * Xv 5 * Xv 1)) + 1.257788237343632 *
   Co 123 * (Xo (Xv 5 * Xv 0) (2 * Xv 1 - 0.3333333333333333 * Xv 5 * Xv 1)) + 2.178553132241672 * Co 166 * (Xo
   (Xv 3 * Xv 4 * Xv 0) (2 * Xv 1 - 0.3333333333333333 * Xv 3 * Xv 4 * Xv 1)) + 1.257788237343632 * Co 105 * (Xo
   (Xv 4 * Xv 0) (2 * Xv 1 - 0.3333333333333333 * Xv 4 * Xv 1)) + 1.257788237343632 * Co 96 * (Xo (Xv 3 * Xv 0)
   (2 * Xv 1 - 0.3333333333333333 * Xv 3 * Xv 1)) + 0.7261843774138907 * Co 48 * (Xo (Xv 0) (2 * Xv 1 -
   0.3333333333333333 * Xv 1)) + 3.773364712030896 * Co 247 * (Xo (Xv 3 * Xv 4 * Xv 5) (2 * Xv 0 * Xv 1 -
   0.3333333333333333 * Xv 3 * Xv 4 * Xv 0 * Xv 1)) + 2.178553132241672 * Co 213 * (Xo (Xv 4 * Xv 5) (2 * Xv 0 *
   Xv 1 - 0.3333333333333333 * Xv 4 * Xv 0 * Xv 1)) + 2.178553132241672 * Co 210 * (Xo (Xv 3 * Xv 5) (2 * Xv 0 *
   Xv 1 - 0.3333333333333333 * Xv 3 * Xv 0 * Xv 1)) + 1.257788237343632 * Co 143 * (Xo (Xv 5) (2 * Xv 0 * Xv 1 -
   0.3333333333333333 * Xv 0 * Xv 1)) + 3.773364712030896 * Co 242 * (Xo (Xv 3 * Xv 4) (2 * Xv 5 * Xv 0 * Xv 1 -
   0.3333333333333333 * Xv 3 * Xv 5 * Xv 0 * Xv 1)) + 2.178553132241672 * Co 203 * (Xo (Xv 4) (2 * Xv 5 * Xv 0 *
   Xv 1 - 0.3333333333333333 * Xv 5 * Xv 0 * Xv 1)) + 3.773364712030896 * Co 238 * (Xo (Xv 3) (2 * Xv 4 * Xv 5 *
   Xv 0 * Xv 1 - 0.3333333333333333 * Xv 4 * Xv 5 * Xv 0 * Xv 1)) + 2.178553132241672 * Co 188 * (Xo (Xv 3) (2 *
   Xv 5 * Xv 0 * Xv 1 - 0.3333333333333333 * Xv 5 * Xv 0 * Xv 1)) + 2.178553132241672 * Co 176 * (Xo (Xv 3 * Xv
   4) (2 * Xv 0 * Xv 1 - 0.3333333333333333 * Xv 3 * Xv 0 * Xv 1)) + 1.257788237343632 * Co 117 * (Xo (Xv 4) (2 *
   Xv 0 * Xv 1 - 0.3333333333333333 * Xv 0 * Xv 1)) + 2.178553132241672 * Co 172 * (Xo (Xv 3) (2 * Xv 4 * Xv 0 *
   Xv 1 - 0.3333333333333333 * Xv 4 * Xv 0 * Xv 1)) + 1.257788237343632 * Co 102 * (Xo (Xv 3) (2 * Xv 0 * Xv 1 -
   0.3333333333333333 * Xv 0 * Xv 1)) + 2.178553132241672 * Co 217 * (Xo (Xv 3 * Xv 4 * Xv 5) (2 * Xv 1 -
   0.3333333333333333 * Xv 3 * Xv 4 * Xv 1)) + 1.257788237343632 * Co 150 * (Xo (Xv 4 * Xv 5) (2 * Xv 1 -
   0.3333333333333333 * Xv 4 * Xv 1)) + 1.257788237343632 * Co 147 * (Xo (Xv 3 * Xv 5) (2 * Xv 1 -
   0.3333333333333333 * Xv 3 * Xv 1)) + 0.7261843774138907 * Co 74 * (Xo (Xv 5) (2 * Xv 1 - 0.3333333333333333 *
   Xv 1)) + 2.178553132241672 * Co 207 * (Xo (Xv 3 * Xv 4) (2 * Xv 5 * Xv 1 - 0.3333333333333333 * Xv 3 * Xv 5 *
   Xv 1)) + 1.257788237343632 * Co 140 * (Xo (Xv 4) (2 * Xv 5 * Xv 1 - 0.3333333333333333 * Xv 5 * Xv 1)) +
   2.178553132241672 * Co 201 * (Xo (Xv 3) (2 * Xv 4 * Xv 5 * Xv 1 - 0.3333333333333333 * Xv 4 * Xv 5 * Xv 1)) +
   1.257788237343632 * Co 133 * (Xo (Xv 3) (2 * Xv 5 * Xv 1 - 0.3333333333333333 * Xv 5 * Xv 1)) +
   1.257788237343632 * Co 121 * (Xo (Xv 3 * Xv 4) (2 * Xv 1 - 0.3333333333333333 * Xv 3 * Xv 1)) +
   0.7261843774138907 * Co 65 * (Xo (Xv 4) (2 * Xv 1 - 0.3333333333333333 * Xv 1)) + 1.257788237343632 * Co 115 *
   (Xo (Xv 3) (2 * Xv 4 * Xv 1 - 0.3333333333333333 * Xv 4 * Xv 1)) + 0.7261843774138907 * Co 58 * (Xo (Xv 3) (2
   * Xv 1 - 0.3333333333333333 * Xv 1)) + 1.948557158514986 * Co 156 * Xv 3 * Xv 4 * Xv 5 * Xv 0 * Xv 1 + 1.125 *
   Co 87 * Xv 4 * Xv 5 * Xv 0 * Xv 1 + 1.125 * Co 84 * Xv 3 * Xv 5 * Xv 0 * Xv 1 + 0.6495190528383289 * Co 38 *
   Xv 5 * Xv 0 * Xv 1 + 1.125 * Co 80 * Xv 3 * Xv 4 * Xv 0 * Xv 1 + 0.6495190528383289 * Co 32 * Xv 4 * Xv 0 * Xv
   1 + 0.6495190528383289 * Co 29 * Xv 3 * Xv 0 * Xv 1 + 0.375 * Co 7 * Xv 0 * Xv 1 + 1.125 * Co 91 * Xv 3 * Xv 4
   * Xv 5 * Xv 1 + 0.6495190528383289 * Co 45 * Xv 4 * Xv 5 * Xv 1 + 0.6495190528383289 * Co 42 * Xv 3 * Xv 5 *
   Xv 1 + 0.375 * Co 18 * Xv 5 * Xv 1 + 0.6495190528383289 * Co 36 * Xv 3 * Xv 4 * Xv 1 + 0.375 * Co 14 * Xv 4 *
   Xv 1 + 0.375 * Co 11 * Xv 3 * Xv 1 + 0.2165063509461096 * Co 2 * Xv 1 + 2.178553132241672 * Co 197 * (Xo (Xv 3
   * Xv 4 * Xv 5 * Xv 0) (2 - 0.3333333333333333 * Xv 3 * Xv 4 * Xv 5)) + 1.257788237343632 * Co 135 * (Xo (Xv 4
   * Xv 5 * Xv 0) (2 - 0.3333333333333333 * Xv 4 * Xv 5)) + 1.257788237343632 * Co 129 * (Xo (Xv 3 * Xv 5 * Xv 0)
   (2 - 0.3333333333333333 * Xv 3 * Xv 5)) + 0.7261843774138907 * Co 68 * (Xo (Xv 5 * Xv 0) (2 -
   0.3333333333333333 * Xv 5)) + 1.257788237343632 * Co 111 * (Xo (Xv 3 * Xv 4 * Xv 0) (2 - 0.3333333333333333 *
   Xv 3 * Xv 4)) + 0.7261843774138907 * Co 60 * (Xo (Xv 4 * Xv 0) (2 - 0.3333333333333333 * Xv 4)) +
   0.7261843774138907 * Co 54 * (Xo (Xv 3 * Xv 0) (2 - 0.3333333333333333 * Xv 3)) + 0.4192627457812106 * Co 22 *
   (Xo (Xv 0) (2 - 0.3333333333333333)) + 2.178553132241672 * Co 216 * (Xo (Xv 3 * Xv 4 * Xv 5) (2 * Xv 0 -
   0.3333333333333333 * Xv 3 * Xv 4 * Xv 0)) + 1.257788237343632 * Co 149 * (Xo (Xv 4 * Xv 5) (2 * Xv 0 -
   0.3333333333333333 * Xv 4 * Xv 0)) + 1.257788237343632 * Co 146 * (Xo (Xv 3 * Xv 5) (2 * Xv 0 -
   0.3333333333333333 * Xv 3 * Xv 0)) + 0.7261843774138907 * Co 73 * (Xo (Xv 5) (2 * Xv 0 - 0.3333333333333333 *
   Xv 0)) + 2.178553132241672 * Co 206 * (Xo (Xv 3 * Xv 4) (2 * Xv 5 * Xv 0 - 0.3333333333333333 * Xv 3 * Xv 5 *
   Xv 0)) + 1.257788237343632 * Co 139 * (Xo (Xv 4) (2 * Xv 5 * Xv 0 - 0.3333333333333333 * Xv 5 * Xv 0)) +
   2.178553132241672 * Co 200 * (Xo (Xv 3) (2 * Xv 4 * Xv 5 * Xv 0 - 0.3333333333333333 * Xv 4 * Xv 5 * Xv 0)) +
   1.257788237343632 * Co 132 * (Xo (Xv 3) (2 * Xv 5 * Xv 0 - 0.3333333333333333 * Xv 5 * Xv 0)) +
   1.257788237343632 * Co 120 * (Xo (Xv 3 * Xv 4) (2 * Xv 0 - 0.3333333333333333 * Xv 3 * Xv 0)) +
   0.7261843774138907 * Co 64 * (Xo (Xv 4) (2 * Xv 0 - 0.3333333333333333 * Xv 0)) + 1.257788237343632 * Co 114 *
   (Xo (Xv 3) (2 * Xv 4 * Xv 0 - 0.3333333333333333 * Xv 4 * Xv 0)) + 0.7261843774138907 * Co 57 * (Xo (Xv 3) (2
   * Xv 0 - 0.3333333333333333 * Xv 0)) + 1.125 * Co 90 * Xv 3 * Xv 4 * Xv 5 * Xv 0 + 0.6495190528383289 * Co 44
   * Xv 4 * Xv 5 * Xv 0 + 0.6495190528383289 * Co 41 * Xv 3 * Xv 5 * Xv 0 + 0.375 * Co 17 * Xv 5 * Xv 0 +
   0.6495190528383289 * Co 35 * Xv 3 * Xv 4 * Xv 0 + 0.375 * Co 13 * Xv 4 * Xv 0 + 0.375 * Co 10 * Xv 3 * Xv 0 +
   0.2165063509461096 * Co 1 * Xv 0 + 1.257788237343632 * Co 152 * (Xo (Xv 3 * Xv 4 * Xv 5) (2 -
   0.3333333333333333 * Xv 3 * Xv 4)) + 0.7261843774138907 * Co 77 * (Xo (Xv 4 * Xv 5) (2 - 0.3333333333333333 *
   Xv 4)) + 0.7261843774138907 * Co 76 * (Xo (Xv 3 * Xv 5) (2 - 0.3333333333333333 * Xv 3)) + 0.4192627457812106
   * Co 27 * (Xo (Xv 5) (2 - 0.3333333333333333)) + 1.257788237343632 * Co 142 * (Xo (Xv 3 * Xv 4) (2 * Xv 5 -
   0.3333333333333333 * Xv 3 * Xv 5)) + 0.7261843774138907 * Co 72 * (Xo (Xv 4) (2 * Xv 5 - 0.3333333333333333 *
   Xv 5)) + 1.257788237343632 * Co 138 * (Xo (Xv 3) (2 * Xv 4 * Xv 5 - 0.3333333333333333 * Xv 4 * Xv 5)) +
   0.7261843774138907 * Co 71 * (Xo (Xv 3) (2 * Xv 5 - 0.3333333333333333 * Xv 5)) + 0.6495190528383289 * Co 47 *
   Xv 3 * Xv 4 * Xv 5 + 0.375 * Co 21 * Xv 4 * Xv 5 + 0.375 * Co 20 * Xv 3 * Xv 5 + 0.2165063509461096 * Co 6 *
   Xv 5 + 0.7261843774138907 * Co 67 * (Xo (Xv 3 * Xv 4) (2 - 0.3333333333333333 * Xv 3)) + 0.4192627457812106 *
   Co 26 * (Xo (Xv 4) (2 - 0.3333333333333333)) + 0.7261843774138907 * Co 63 * (Xo (Xv 3) (2 * Xv 4 -
   0.3333333333333333 * Xv 4)) + 0.375 * Co 16 * Xv 3 * Xv 4 + 0.2165063509461096 * Co 5 * Xv 4 +
   0.4192627457812106 * Co 25 * (Xo (Xv 3) (2 - 0.3333333333333333)) + 0.2165063509461096 * Co 4 * Xv 3 + 0.125 *
   Co 0)%kexp.

(** expand6d.py 589-590: a bare [return]. *)
Definition kt_6d3p : option kexp := None.

(** expand6d.py 596-597: a bare [return]. *)
Definition kt_6d4p : option kexp := None.

(** The lists expand_1d ... expand_6d at the ends of the files. *)
Definition expand_lists (d : nat) : option (list (option kexp)) :=
  match d with
  | 1 => Some [kt_1d1p; kt_1d2p; kt_1d3p; kt_1d4p]
  | 2 => Some [kt_2d1p; kt_2d2p; kt_2d3p; kt_2d4p]
  | 3 => Some [kt_3d1p; kt_3d2p; kt_3d3p; kt_3d4p]
  | 4 => Some [kt_4d1p; kt_4d2p; kt_4d3p; kt_4d4p]
  | 5 => Some [kt_5d1p; kt_5d2p; kt_5d3p; kt_5d4p]
  | 6 => Some [kt_6d1p; kt_6d2p; kt_6d3p; kt_6d4p]
  | _ => None
  end.
