(** * C95: contour levels; examples and what does not hold *)
From Coq Require Import String Ascii List Arith ZArith QArith Lqa Lia Bool.
From Verif Require Import Prelude PreludeFacts DataSpace_Proofs Write_Model Label_Model Label_Spec Label_Proofs
  Label_Proofs2 Label_Props Label_Props2.
Import ListNotations.
Open Scope list_scope.

Lemma increasing_rising l : increasing l = true <-> rising l.
Proof.
  unfold rising. induction l as [|a [|b l] IH].
  - split; [intros _ i Hi; simpl in Hi; lia|reflexivity].
  - split; [intros _ i Hi; simpl in Hi; lia|reflexivity].
  - cbn [increasing]. rewrite andb_true_iff, IH. split.
    + intros [H1 H2] [|i] Hi.
      * cbn [nth]. apply negb_true_iff in H1. destruct (Qlt_le_dec a b) as [|C]; [assumption|].
        apply Qle_bool_iff in C. congruence.
      * cbn [nth]. apply (H2 i). simpl in *. lia.
    + intros H. split.
      * apply negb_true_iff. destruct (Qle_bool b a) eqn:C; [|reflexivity]. apply Qle_bool_iff in C.
        specialize (H 0%nat ltac:(simpl; lia)). cbn [nth] in H. lra.
      * intros i Hi. apply (H (S i)). simpl in *. lia.
Qed.

Section Levels.
  Context (pfloat : string -> option Q).

  (** [--cnlevels n] asks for [n - 1] levels; without options it is 10. *)
  Theorem C95_levels_count o :
    (forall n, l_cnlevels o = Some n -> n <> 0%Z -> contour_levels pfloat o = Ok (LCount (n - 1))) /\
    (l_cnlevels o = None -> l_clevels o = None -> contour_levels pfloat o = Ok (LCount 10)).
  Proof.
    unfold contour_levels. split.
    - intros n -> Hn. destruct n; [congruence|reflexivity|reflexivity].
    - intros -> ->. reflexivity.
  Qed.

  (** [--clevels] with values: these, empty items left out, if every one is
      larger than the one before. *)
  Theorem C95_levels_listed o ls qs :
    l_cnlevels o = None -> l_clevels o = Some (join "," ls) ->
    Forall (fun s => has_char "," s = false /\ has_char ":" s = false) ls -> join "," ls <> ""%string ->
    Forall2 (fun s q => pfloat s = Some q) (filter (fun s => negb (String.eqb s "")) ls) qs ->
    (rising qs -> contour_levels pfloat o = Ok (LAt qs)) /\
    (~ rising qs -> contour_levels pfloat o = Err ValueError).
  Proof.
    intros Hn Hl W Hne F. unfold contour_levels. rewrite Hn, Hl. unfold filled.
    destruct (String.eqb_spec (join "," ls) "") as [|_]; [contradiction|].
    assert (W1 : Forall (fun s => has_char "," s = false) ls) by (eapply Forall_impl; [|exact W]; simpl; tauto).
    assert (W2 : Forall (fun s => has_char ":" s = false) ls) by (eapply Forall_impl; [|exact W]; simpl; tauto).
    rewrite (has_char_join ":"%char ","%char ls) by (auto; discriminate).
    assert (ls <> []) by (intros ->; now apply Hne).
    rewrite (split_join ","%char) by auto.
    assert (M : mapM (to_float pfloat) (filter (fun t => negb (t =? "")%string) ls) = Ok qs).
    { clear - F. induction F as [|s q l m Hs F IH]; [reflexivity|]. cbn [mapM]. unfold to_float at 1. rewrite Hs.
      cbn [bind]. now rewrite IH. }
    rewrite M. cbn [bind]. pose proof (increasing_rising qs) as I. split.
    - intros R. apply I in R. now rewrite R.
    - intros R. destruct (increasing qs); [|reflexivity]. exfalso. apply R. now apply I.
  Qed.

  Lemma linspace_spaced a b n : (0 < n)%nat -> exists l, linspace a b (Z.of_nat n) = Ok l /\ equally_spaced a b n l.
  Proof.
    intros Hn. unfold linspace. destruct (Z.ltb_spec (Z.of_nat n) 0); [lia|]. eexists. split; [reflexivity|].
    rewrite Nat2Z.id.
    set (f := fun i : nat => if (Z.of_nat n =? 1)%Z then a else a + inject_Z (Z.of_nat i) * ((b - a) / inject_Z (Z.of_nat n - 1))).
    assert (N : forall i, (i < n)%nat -> nth i (List.map f (seq 0 n)) 0 = f i).
    { intros i Hi. rewrite (nth_indep _ 0 (f 0%nat)) by (now rewrite map_length, seq_length).
      rewrite map_nth, seq_nth by exact Hi. reflexivity. }
    assert (G : (2 <= n)%nat -> forall i, f i = a + inject_Z (Z.of_nat i) * ((b - a) / inject_Z (Z.of_nat n - 1))).
    { intros H2 i. unfold f. destruct (Z.eqb_spec (Z.of_nat n) 1); [lia|reflexivity]. }
    assert (NZ : (2 <= n)%nat -> ~ inject_Z (Z.of_nat n - 1) == 0).
    { intros H2 E. unfold inject_Z, Qeq in E. simpl in E. lia. }
    split; [now rewrite map_length, seq_length|]. split; [|split].
    - rewrite N by exact Hn. destruct (le_lt_dec 2 n) as [H2|H2].
      + rewrite G by exact H2. change (inject_Z (Z.of_nat 0)) with 0. field. now apply NZ.
      + assert (n = 1%nat) as -> by lia. reflexivity.
    - intros H2. rewrite N by lia. rewrite G by exact H2.
      replace (Z.of_nat (n - 1)) with (Z.of_nat n - 1)%Z by lia. field. now apply NZ.
    - intros i Hi. rewrite !N by lia. rewrite !G by lia.
      rewrite !Nat2Z.inj_succ. unfold Z.succ. rewrite !inject_Z_plus. field. apply NZ. lia.
  Qed.

  Lemma spaced_rising a b n l : equally_spaced a b n l -> (2 <= n)%nat -> (rising l <-> a < b).
  Proof.
    intros (L & A & B & D) H2.
    assert (K : forall i, (S i < n)%nat -> nth (S i) l 0 - nth i l 0 == nth 1 l 0 - nth 0 l 0).
    { induction i as [|i IH]; intros Hi; [reflexivity|]. rewrite D by exact Hi. apply IH. lia. }
    assert (P : forall i, (i < n)%nat -> nth i l 0 == a + inject_Z (Z.of_nat i) * (nth 1 l 0 - nth 0 l 0)).
    { induction i as [|i IH]; intros Hi.
      - rewrite A. change (inject_Z (Z.of_nat 0)) with 0. ring.
      - specialize (IH ltac:(lia)). specialize (K i ltac:(lia)).
        rewrite Nat2Z.inj_succ. unfold Z.succ. rewrite inject_Z_plus.
        setoid_replace (nth (S i) l 0) with (nth i l 0 + (nth 1 l 0 - nth 0 l 0)) by lra.
        rewrite IH. ring. }
    assert (E : b == a + inject_Z (Z.of_nat (n - 1)) * (nth 1 l 0 - nth 0 l 0)) by (rewrite <- B by lia; apply P; lia).
    assert (Pos : 0 < inject_Z (Z.of_nat (n - 1))) by (change 0 with (inject_Z 0); rewrite <- Zlt_Qlt; lia).
    set (d := nth 1 l 0 - nth 0 l 0) in *. clearbody d. unfold rising. split.
    - intros R. specialize (R 0%nat ltac:(lia)). specialize (K 0%nat ltac:(lia)).
      assert (0 < d) by lra. rewrite E. assert (0 < inject_Z (Z.of_nat (n - 1)) * d) by (apply Qmult_lt_0_compat; auto). lra.
    - intros R i Hi. specialize (K i ltac:(lia)).
      destruct (Qlt_le_dec 0 d) as [|C]; [lra|]. exfalso.
      assert (inject_Z (Z.of_nat (n - 1)) * d <= 0); [|lra].
      setoid_replace 0 with (inject_Z (Z.of_nat (n - 1)) * 0) by ring. apply Qmult_le_l; auto.
  Qed.

  (** [--clevels a:b:n]: [n] values from [a] to [b] at equal distances; the
      first must be the smaller one. *)
  Theorem C95_levels_range o sa sb a b n :
    l_cnlevels o = None -> l_clevels o = Some (sa ++ ":" ++ sb ++ ":" ++ show_Z (Z.of_nat n))%string ->
    has_char ":" sa = false -> has_char ":" sb = false -> pfloat sa = Some a -> pfloat sb = Some b -> (0 < n)%nat ->
    (n = 1%nat \/ a < b -> exists l, contour_levels pfloat o = Ok (LAt l) /\ equally_spaced a b n l) /\
    ((1 < n)%nat -> b <= a -> contour_levels pfloat o = Err ValueError).
  Proof.
    intros Hn Hl Ha Hb Pa Pb Hp. unfold contour_levels. rewrite Hn, Hl. unfold filled.
    destruct (String.eqb_spec (sa ++ ":" ++ sb ++ ":" ++ show_Z (Z.of_nat n)) "") as [E|_]; [destruct sa; discriminate|].
    rewrite has_char_app. cbn [append has_char Ascii.eqb Bool.eqb orb]. rewrite orb_true_r.
    rewrite (split_on_app ":"%char sa) by exact Ha. rewrite (split_on_app ":"%char sb) by exact Hb.
    rewrite split_on_none by (apply show_Z_no; auto).
    unfold to_float. rewrite Pa, Pb. cbn [bind]. rewrite py_int_show_Z. cbn [bind].
    destruct (linspace_spaced a b n Hp) as (l & -> & S). cbn [bind].
    pose proof (increasing_rising l) as I. split.
    - intros C. exists l. split; [|exact S].
      assert (R : increasing l = true); [|now rewrite R]. apply I.
      destruct C as [->|C].
      + destruct S as (L & _). intros i Hi. lia.
      + destruct (le_lt_dec 2 n) as [H2|H2]; [now apply (spaced_rising _ _ _ _ S H2)|].
        destruct S as (L & _). intros i Hi. lia.
    - intros H2 C. destruct (increasing l) eqn:R; [|reflexivity]. exfalso.
      pose proof (proj1 I eq_refl) as R'. apply (spaced_rising _ _ _ _ S H2) in R'. lra.
  Qed.
End Levels.

Print Assumptions C95_x_label.
Print Assumptions C95_y_label.
Print Assumptions C95_no_y_label.
Print Assumptions C95_panels.
Print Assumptions C95_bare_panels.
Print Assumptions C95_one_panel.
Print Assumptions C95_labels_kept.
Print Assumptions C95_curves.
Print Assumptions C95_curves_together.
Print Assumptions C95_labels_differ.
Print Assumptions C95_limits.
Print Assumptions C95_fields.
Print Assumptions C95_lineouts.
Print Assumptions C95_single_line.
Print Assumptions C95_levels_count.
Print Assumptions C95_levels_listed.
Print Assumptions C95_levels_range.

(** ** Examples *)

Definition fmt_ex (q : Q) : string :=
  if Qeq_bool q 0 then "0.00e+00" else if Qeq_bool q 2 then "2.00e+00" else "3.00e+00".
Definition pf_ex (s : string) : option Q := match py_int s with Ok z => Some (inject_Z z) | Err _ => None end.
Definition names : list string := ["$z_0$"; "$z_1$"; "$z_2$"; "$z_3$"; "$z_4$"; "$z_5$"]%string.

Definition base_opts : lopts :=
  mk_lopts None None None None None None None 0 1 0 1 1 false 0 "" false None None false false None
    false true true true false false None None None None.

Definition ex_panels : lopts :=
  mk_lopts None None (Some "n"%string) (Some "T"%string) (Some "a,b"%string) (Some "p,q,r"%string) (Some ",y"%string)
    2 1 2 3 3 false 0 "_f" false None None false false None false true true true true false (Some 0) None None None.

(** Three components of 2-D data on four panels. *)
Example C95_panels_ex :
  label_events fmt_ex fmt_ex pf_ex ex_panels 2 3 names 7 false 3 4 =
  Ok ([AxisOff 3; SupTitle "T"; SupX "$z_0$ + 2.00e+00"; SupY "($z_1$ + 2.00e+00) $\times$ 3.00e+00";
       Xlabel 0 "p"; Ylabel 0 ""; Title 0 "a"; Xlabel 1 "q"; Ylabel 1 "y"; Title 1 "b";
       Xlabel 2 "r"; Ylabel 2 ""; Xlabel 3 ""; Ylabel 3 ""]
      ++ [Mesh 0; Bar 0 "n $\times$ 3.00e+00"; Grid 0 true; Text 0 "f_c0"; LogX 0; Xlim 0 (Some 0) None]
      ++ [Mesh 1; Bar 1 "n $\times$ 3.00e+00"; Grid 1 true; Text 1 "f_c1"; LogX 1; Xlim 1 (Some 0) None]
      ++ [Mesh 2; Bar 2 "n $\times$ 3.00e+00"; Grid 2 true; Text 2 "f_c2"; LogX 2; Xlim 2 (Some 0) None])%list.
Proof. reflexivity. Qed.

Definition ex_squeeze : lopts :=
  mk_lopts None (Some "y"%string) None (Some "T"%string) None None None
    0 1 0 1 1 true 0 "" false None None false false None false true true false false false None None None None.

(** Two components of 1-D data on one panel. *)
Example C95_one_panel_ex :
  label_events fmt_ex fmt_ex pf_ex ex_squeeze 1 2 names 0 false 2 1 =
  Ok ([Xlabel 0 "$z_0$"; Ylabel 0 "y"; Title 0 "T"]
      ++ [Line 0 (Some "c0"%string); Grid 0 false; Legend 0] ++ [Line 0 (Some "c1"%string); Grid 0 false; Legend 0])%list.
Proof. reflexivity. Qed.

(** The hypotheses of the theorems on panels and of those on 1-D and 2-D plots
    hold here. *)
Example C95_panels_applies :
  l_sub_titles ex_panels = Some (join "," ["a"; "b"])%string /\
  l_sub_xlabels ex_panels = Some (join "," ["p"; "q"; "r"])%string /\
  l_sub_ylabels ex_panels = Some (join "," [""; "y"])%string /\ l_lineouts ex_panels = None /\
  l_squeeze ex_panels = false /\ l_squeeze ex_squeeze = true.
Proof. repeat split. Qed.

Definition with_contour (n : option Z) (s : option string) : lopts :=
  mk_lopts None None None None None None None 0 1 0 1 1 false 1 "" true n s false false None
    false true false true false false None None None None.
Definition with_lineouts (l : Z) (zscale : Q) : lopts :=
  mk_lopts None None None None None None None 0 1 0 1 zscale false 0 "" false None None false false (Some l)
    false true true true false false None None None None.

(** One level: no colour bar. *)
Example C95_levels_ex :
  contour_levels pf_ex (with_contour None (Some "1,,4,"%string)) = Ok (LAt [1; 4]) /\
  contour_levels pf_ex (with_contour None (Some "4,1"%string)) = Err ValueError /\
  contour_levels pf_ex (with_contour (Some 5%Z) (Some "4,1"%string)) = Ok (LCount 4) /\
  (exists l, contour_levels pf_ex (with_contour None (Some "0:2:5"%string)) = Ok (LAt l) /\ equally_spaced 0 2 5 l) /\
  contour_levels pf_ex (with_contour None (Some "2:0:5"%string)) = Err ValueError /\
  contour_levels pf_ex (with_contour None (Some "2:0"%string)) = Err IndexError /\
  label_events fmt_ex fmt_ex pf_ex (with_contour None (Some "3"%string)) 2 1 names 0 true 1 2 =
    Ok [Contour 1 (LAt [3]); Grid 1 true].
Proof.
  repeat split; try reflexivity.
  apply (C95_levels_range pf_ex (with_contour None (Some "0:2:5"%string)) "0" "2" 0 2 5); try reflexivity; [lia|].
  right. reflexivity.
Qed.

Example C95_lineouts_ex :
  label_events fmt_ex fmt_ex pf_ex (with_lineouts 1 1) 2 1 names 3 false 1 1 =
  Ok [SupX "$z_1$"; Xlabel 0 ""; Ylabel 0 ""; Line 0 None; Line 0 None; Line 0 None; Bar 0 "$z_0$"; Grid 0 true]%string /\
  label_events fmt_ex fmt_ex pf_ex (with_lineouts 1 1) 2 1 names 1 false 1 1 = Err ZeroDivisionError.
Proof. split; reflexivity. Qed.

(** ** What does not hold *)

Definition shifted (xs ys : Q) : lopts :=
  mk_lopts None None None None None None None xs 1 ys 1 1 false 0 "" false None None false false None
    false true true true false false None None None None.

(** The label of the y axis need not tell its shift: with only the x axis
    shifted it shows a shift of 0, with only the y axis shifted it shows none. *)
Theorem C95_y_label_refuted :
  exists o o' evs evs' y y', l_ylabel o = None /\ l_lineouts o = None /\ l_ylabel o' = None /\ l_lineouts o' = None /\
    label_events fmt_ex fmt_ex pf_ex o 2 1 names 0 false 1 1 = Ok evs /\
    label_events fmt_ex fmt_ex pf_ex o' 2 1 names 0 false 1 1 = Ok evs' /\
    l_xshift o == 2 /\ l_yshift o == 0 /\ supys evs = [y] /\ y = "$z_1$ + 0.00e+00"%string /\
    ~ described fmt_ex "$z_1$" (l_yshift o) (l_yscale o) y /\
    l_xshift o' == 0 /\ l_yshift o' == 2 /\ supys evs' = [y'] /\ y' = "$z_1$"%string /\
    ~ described fmt_ex "$z_1$" (l_yshift o') (l_yscale o') y'.
Proof.
  exists (shifted 2 0), (shifted 0 2).
  let v := eval vm_compute in (label_events fmt_ex fmt_ex pf_ex (shifted 2 0) 2 1 names 0 false 1 1) in
  match v with Ok ?e => exists e end.
  let v := eval vm_compute in (label_events fmt_ex fmt_ex pf_ex (shifted 0 2) 2 1 names 0 false 1 1) in
  match v with Ok ?e => exists e end.
  exists "$z_1$ + 0.00e+00"%string, "$z_1$"%string.
  repeat (split; [reflexivity|]). split.
  - intros D. cbn [l_yshift l_yscale shifted] in D. inversion D as [A B|A B|A B|A B].
    apply A. reflexivity.
  - repeat (split; [reflexivity|]). intros D. cbn [l_yshift l_yscale shifted] in D.
    inversion D as [A B E|A B E|A B E|A B E]; discriminate.
Qed.
Print Assumptions C95_y_label_refuted.

(** The colour bar of line-outs need not be labelled with the coordinate of the
    lines: a scale of the values, which line-outs do not use, takes its place. *)
Theorem C95_line_bar_refuted :
  exists o evs, l_clabel o = None /\ l_lineouts o = Some 0%Z /\
    label_events fmt_ex fmt_ex pf_ex o 2 1 names 3 false 1 1 = Ok evs /\
    bars_of 0 evs = ["$\times$ 2.00e+00"%string].
Proof.
  exists (with_lineouts 0 2).
  let v := eval vm_compute in (label_events fmt_ex fmt_ex pf_ex (with_lineouts 0 2) 2 1 names 3 false 1 1) in
  match v with Ok ?e => exists e end.
  repeat split.
Qed.
Print Assumptions C95_line_bar_refuted.

(** With [--lineouts 1] the only axis of 1-D data is given the name of the
    second coordinate. *)
Theorem C95_line_axis_refuted :
  exists o evs, l_xlabel o = None /\ label_events fmt_ex fmt_ex pf_ex o 1 1 names 0 false 1 1 = Ok evs /\
    supxs evs = ["$z_1$"%string] /\ lines_of 0 evs = [Some ""%string].
Proof.
  exists (with_lineouts 1 1).
  let v := eval vm_compute in (label_events fmt_ex fmt_ex pf_ex (with_lineouts 1 1) 1 1 names 0 false 1 1) in
  match v with Ok ?e => exists e end.
  repeat split.
Qed.
Print Assumptions C95_line_axis_refuted.
