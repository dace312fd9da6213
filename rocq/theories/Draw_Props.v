(** * C90: a plot shows every value at its place *)
From Coq Require Import String Ascii List Arith ZArith Bool Lia Reals Lra.
From Verif Require Import Prelude PreludeFacts NdArray Ev_Model Ev_Arith Tools_Arr Draw_Model Draw_Spec Draw_Proofs Draw_Proofs2.
Import ListNotations.
Open Scope list_scope.
Open Scope nat_scope.

(** [plot_data] succeeds, the first axis label is that of axis [a], and the calls
    for component [c] satisfy [Q c]; there are [n] components. *)
Definition plots (o : dopts) (d : pd) (n : nat) (first : list nat) (Q : nat -> list call -> Prop) : Prop :=
  exists calls labels, plot_data o d = Ok (calls, labels) /\ length calls = n /\
    (exists l, labels = first ++ l) /\
    forall c cs, nth_error calls c = Some cs -> Q c cs.

Lemma in_one n x : in_range [n] x -> exists i, x = [i] /\ i < n.
Proof. intros H. inversion H as [|i ? x' ? Hi Hx']; subst. inversion Hx'; subst. eauto. Qed.
Lemma in_two m n x : in_range [m; n] x -> exists i j, x = [i; j] /\ i < m /\ j < n.
Proof. intros H. inversion H as [|i ? x' ? Hi Hx']; subst. apply in_one in Hx' as (j & -> & Hj). eauto 6. Qed.

(** One remaining axis: for every component one curve through the points
    (centre of the cell, value), shifted and scaled as asked. *)
Theorem C90_line :
  forall o edges cells X m f d a n,
    dataset edges cells X m f d -> only_axis cells a n ->
    plots o d (m / (if o_stream o || o_quiver o then 2 else 1)) [a] (fun c cs =>
      exists x y, cs = [Curve x y] /\
        holds [n] x (fun i => (mid_of edges X a (hd 0%nat i) + o_xshift o) * o_xscale o)%R /\
        holds [n] y (fun i => (f (cell1 (length cells) a (hd 0%nat i)) c + o_yshift o) * o_yscale o)%R).
Proof.
  intros o edges cells X m f d a n D A. unfold plots, plot_data.
  destruct (squeeze_axis _ _ _ _ _ _ _ _ D A) as (g & w & labels & E & L & G & Sw & El).
  pose proof D as (_ & _ & _ & Ec & _). rewrite Ec, E, L. cbn [Nat.ltb Nat.leb bind fst snd].
  destruct (draw_all_spec o 1 (mk_pd [g] [n] w) _ 
     (fun c cs => exists x y, cs = [Curve x y] /\
        holds [n] x (fun i => (mid_of edges X a (hd 0%nat i) + o_xshift o) * o_xscale o)%R /\
        holds [n] y (fun i => (f (cell1 (length cells) a (hd 0%nat i)) c + o_yshift o) * o_yscale o)%R)
     (fun _ => True) (comps_of o (mk_pd [g] [n] w) _ _ _ Sw) I) as (out & Eo & Lo & Ho).
  - intros lim c _ Hc.
    assert (Hm : c < m).
    { destruct (o_stream o || o_quiver o); [|now rewrite Nat.div_1_r in Hc].
      pose proof (Nat.mul_div_le m 2). lia. }
    destruct (nodal_one edges X a n g G) as (u & Eu & Hu).
    destruct (holds_comp c w [n] m _ Sw Hm) as (v & Ev & Hv).
    pose proof (holds_affine _ _ _ (o_xshift o) (o_xscale o) Hu) as Hx.
    pose proof (holds_affine _ _ _ (o_yshift o) (o_yscale o) Hv) as Hy.
    exists [Curve (affine (o_xshift o) (o_xscale o) u) (affine (o_yshift o) (o_yscale o) v)], lim.
    split; [|split; [|exact I]].
    + cbn [draw_comp]. unfold draw_curve. cbn [p_grid p_cells p_vals]. rewrite Eu. cbn [bind item nth_error]. rewrite Ev. cbn [bind].
      unfold takes_curve. destruct Hx as (_ & Sx & _). destruct Hy as (_ & Sy & _). rewrite Sx, Sy. cbn [hd].
      rewrite Nat.eqb_refl. reflexivity.
    + eexists _, _. split; [reflexivity|]. split; [exact Hx|exact Hy].
  - rewrite Eo. cbn [bind]. exists out, labels. split; [reflexivity|]. split; [exact Lo|]. split; [|exact Ho].
    destruct El as (l & ->). exists l. reflexivity.
Qed.

(** What the two-axis theorems share. *)
Lemma plots_two o edges cells X m f d a n b p Q (Inv : option R * option R -> Prop) :
  dataset edges cells X m f d -> only_axes cells a n b p ->
  Inv (o_zmin o, o_zmax o) ->
  (forall g h w lim c,
     holds [points edges n] g (fun x => X a (hd 0%nat x)) -> holds [points edges p] h (fun x => X b (hd 0%nat x)) ->
     shows [n; p] m w (fun x c => f (cell2 (length cells) a (hd 0%nat x) b (nth 1%nat x 0%nat)) c) ->
     Inv lim -> c < m / (if o_stream o || o_quiver o then 2 else 1) ->
     exists calls lim', draw_comp o 2 (mk_pd [g; h] [n; p] w) lim c = Ok (calls, lim') /\ Q c calls /\ Inv lim') ->
  plots o d (m / (if o_stream o || o_quiver o then 2 else 1)) [a; b] Q.
Proof.
  intros D A I0 H. unfold plots, plot_data.
  destruct (squeeze_axes2 _ _ _ _ _ _ _ _ _ _ D A) as (g & h & w & labels & E & L & G & Hh & Sw & El).
  pose proof D as (_ & _ & _ & Ec & _). rewrite Ec, E, L. cbn [Nat.ltb Nat.leb bind fst snd].
  destruct (draw_all_spec o 2 (mk_pd [g; h] [n; p] w) _ Q Inv (comps_of o (mk_pd [g; h] [n; p] w) _ _ _ Sw) I0) as (out & Eo & Lo & Ho).
  - intros lim c Il Hc. apply H; auto.
  - rewrite Eo. cbn [bind]. exists out, labels. split; [reflexivity|]. split; [exact Lo|]. split; [|exact Ho].
    destruct El as (l & ->). exists l. reflexivity.
Qed.

(** The value of component [c] in cell [(i, j)] of the two axes, as plotted. *)
Definition zval (o : dopts) (cells : list nat) (a b : nat) (f : list nat -> nat -> R) (c : nat) (x : list nat) : R :=
  ((f (cell2 (length cells) a (nth 1%nat x 0%nat) b (hd 0%nat x)) c + o_zshift o) * o_zscale o)%R.

Lemma zval_tr o cells a b f c n p v :
  holds [n; p] v (fun x => f (cell2 (length cells) a (hd 0%nat x) b (nth 1%nat x 0%nat)) c) ->
  holds [p; n] (affine (o_zshift o) (o_zscale o) (tr v)) (zval o cells a b f c).
Proof.
  intros H. apply holds_tr in H. eapply holds_ext; [apply (holds_affine _ _ _ _ _ H)|].
  intros x Hx. apply in_two in Hx as (i & j & -> & _). reflexivity.
Qed.

(** Limits of the colours: those given, or with [diverging] a symmetric range
    that just covers the values. *)
Definition limits (o : dopts) (z : nda R) (vmin vmax : option R) : Prop :=
  if o_diverging o
  then exists s, vmin = Some (- s)%R /\ vmax = Some s /\
         (forall x v, get z x = Some v -> Rabs v <= s)%R /\ (exists x v, get z x = Some v /\ Rabs v = s)
  else vmin = o_zmin o /\ vmax = o_zmax o.

Lemma absmax_spec m n z zf : holds [m; n] z zf -> 0 < m -> 0 < n ->
  exists s, absmax z = Ok s /\ (forall x v, get z x = Some v -> Rabs v <= s)%R /\ (exists x v, get z x = Some v /\ Rabs v = s).
Proof.
  intros (W & Sz & V) Hm Hn. unfold absmax. unfold wf in W. rewrite Sz in W.
  destruct (flat z) as [|v0 l] eqn:Ef.
  { exfalso. assert (0 < prod [m; n]) by (unfold prod; cbn [fold_right]; rewrite Nat.mul_1_r; apply Nat.mul_pos_pos; lia). cbn [length] in W. lia. }
  eexists. split; [reflexivity|].
  assert (G : forall l s, (s <= fold_left (fun m w => Rmax m (Rabs w)) l s)%R /\
             (forall v, In v l -> Rabs v <= fold_left (fun m w => Rmax m (Rabs w)) l s)%R /\
             (fold_left (fun m w => Rmax m (Rabs w)) l s = s \/ exists v, In v l /\ Rabs v = fold_left (fun m w => Rmax m (Rabs w)) l s)).
  { clear. induction l as [|w l IH]; intros s; cbn [fold_left].
    - split; [apply Rle_refl|]. split; [intros v []|left; reflexivity].
    - destruct (IH (Rmax s (Rabs w))) as (A & B & C). split; [eapply Rle_trans; [apply Rmax_l|exact A]|]. split.
      + intros v [->|Hv]; [eapply Rle_trans; [apply Rmax_r|exact A]|apply B, Hv].
      + destruct C as [C|(v & Hv & C)].
        * destruct (Rle_dec s (Rabs w)) as [L|L].
          -- right. exists w. split; [left; reflexivity|]. rewrite C. symmetry. now apply Rmax_right.
          -- left. rewrite C. apply Rmax_left. lra.
        * right. exists v. split; [right; exact Hv|exact C]. }
  destruct (G l (Rabs v0)) as (A & B & C). split.
  - intros x v E. unfold get in E. destruct (ravel (shape z) x); [|discriminate]. rewrite Ef in E. apply nth_error_In in E.
    destruct E as [->|E]; [exact A|apply B, E].
  - assert (K : forall v, In v (flat z) -> exists x, get z x = Some v).
    { intros v Hv. apply In_nth_error in Hv as (k & Ek). assert (Lk : k < length (flat z)) by (apply nth_error_Some; congruence).
      rewrite Ef in Lk. rewrite W in Lk. rewrite <- Sz in Lk. destruct (ravel_surj (shape z) k Lk) as (x & Ex). exists x. unfold get. now rewrite Ex. }
    destruct C as [C|(v & Hv & C)].
    + destruct (K v0) as (x & Ex); [rewrite Ef; left; reflexivity|]. exists x, v0. split; [exact Ex|]. now rewrite C.
    + destruct (K v) as (x & Ex); [rewrite Ef; right; exact Hv|]. exists x, v. split; [exact Ex|exact C].
Qed.

(** Two remaining axes, colour map: row [j], column [i] of the colours is the
    value in cell (i, j); the coordinates are the edges of the cells, or their
    centres when the grid has only these. *)
Theorem C90_mesh :
  forall o edges cells X m f d a n b p,
    dataset edges cells X m f d -> only_axes cells a n b p ->
    o_contour o = false -> o_quiver o = false -> o_stream o = false -> o_lineouts o = None ->
    plots o d m [a; b] (fun c cs =>
      exists x y z vmin vmax ext, cs = [Mesh x y z vmin vmax ext] /\
        holds [points edges n] x (fun i => (X a (hd 0%nat i) + o_xshift o) * o_xscale o)%R /\
        holds [points edges p] y (fun j => (X b (hd 0%nat j) + o_yshift o) * o_yscale o)%R /\
        holds [p; n] z (zval o cells a b f c) /\ limits o z vmin vmax).
Proof.
  intros o edges cells X m f d a n b p D A Oc Oq Os Ol.
  replace m with (m / (if o_stream o || o_quiver o then 2 else 1)) at 1 by (rewrite Oq, Os; apply Nat.div_1_r).
  eapply plots_two with (Inv := fun lim => o_diverging o = false -> lim = (o_zmin o, o_zmax o)); [exact D|exact A|reflexivity|].
  intros g h w (zmin, zmax) c G H Sw Il Hc. rewrite Oq, Os, Nat.div_1_r in Hc.
  pose proof A as (_ & Hn & Hp & _).
  destruct (holds_comp c w [n; p] m _ Sw Hc) as (v & Ev & Hv).
  pose proof (zval_tr o cells a b f c n p v Hv) as Hz.
  destruct (nodal_two edges X a b n p g h G H) as (gu & hw & En & Hgu & Hhw).
  destruct (absmax_spec p n _ _ Hz) as (s & Es & Bs & Ws); [lia|lia|].
  cbn [draw_comp]. rewrite Oc, Oq, Os, Ol. unfold draw_mesh. cbn [p_grid p_cells p_vals].
  change (item [g; h] 0) with (@Ok arr g). change (item [g; h] 1) with (@Ok arr h). cbn [bind]. rewrite Ev. cbn [bind].
  pose proof Hz as (_ & Sz & _). rewrite Sz. change (item [p; n] 1) with (Ok n). change (item [p; n] 0) with (Ok p). cbn [bind].
  pose proof G as (_ & Sg & _). pose proof H as (_ & Sh & _). rewrite Sg, Sh. cbn [hd].
  set (z := affine (o_zshift o) (o_zscale o) (tr v)) in *.
  (* the coordinates used *)
  assert (K : exists g' h',
     (if (points edges n =? n) || (points edges p =? p)
      then (let* ng := nodal_grid [g; h] [n; p] in
            let* g0 := item ng 0 in let* h0 := item ng 1 in Ok (g0, h0))
      else Ok (g, h)) = Ok (g', h') /\
     holds [points edges n] g' (fun x => X a (hd 0%nat x)) /\ holds [points edges p] h' (fun x => X b (hd 0%nat x))).
  { destruct edges; cbn [points].
    - destruct (Nat.eqb_spec (S n) n); [lia|]. destruct (Nat.eqb_spec (S p) p); [lia|]. exists g, h. auto.
    - rewrite Nat.eqb_refl. cbn [orb]. rewrite En. cbn [bind]. exists gu, hw. auto. }
  destruct K as (g' & h' & Ek & Hg' & Hh'). rewrite Ek. cbn [bind].
  pose proof Hg' as (_ & Sg' & _). rewrite Sg'. cbn [length Nat.ltb Nat.leb].
  pose proof (holds_affine _ _ _ (o_xshift o) (o_xscale o) Hg') as Hx.
  pose proof (holds_affine _ _ _ (o_yshift o) (o_yscale o) Hh') as Hy.
  assert (T : takes_mesh (affine (o_xshift o) (o_xscale o) g') (affine (o_yshift o) (o_yscale o) h') z = true).
  { unfold takes_mesh. destruct Hx as (_ & -> & _). destruct Hy as (_ & -> & _). rewrite Sz.
    unfold points. destruct edges; rewrite !Nat.eqb_refl; [apply orb_true_r|reflexivity]. }
  destruct (o_diverging o) eqn:Od.
  - rewrite Es. cbn [bind]. rewrite T. eexists _, _. split; [reflexivity|]. split; [|discriminate].
    eexists _, _, _, _, _, _. split; [reflexivity|]. split; [exact Hx|]. split; [exact Hy|]. split; [exact Hz|].
    unfold limits. rewrite Od. exists s. auto.
  - cbn [bind]. rewrite T. specialize (Il eq_refl). injection Il as -> ->. eexists _, _. split; [reflexivity|]. split; [|reflexivity].
    eexists _, _, _, _, _, _. split; [reflexivity|]. split; [exact Hx|]. split; [exact Hy|]. split; [exact Hz|].
    unfold limits. rewrite Od. auto.
Qed.

(** Contour lines: values at the centres of the cells. *)
Theorem C90_contour :
  forall o edges cells X m f d a n b p,
    dataset edges cells X m f d -> only_axes cells a n b p -> o_contour o = true ->
    plots o d (m / (if o_stream o || o_quiver o then 2 else 1)) [a; b] (fun c cs =>
      exists x y z, cs = [Contours x y z] /\
        holds [n] x (fun i => (mid_of edges X a (hd 0%nat i) + o_xshift o) * o_xscale o)%R /\
        holds [p] y (fun j => (mid_of edges X b (hd 0%nat j) + o_yshift o) * o_yscale o)%R /\
        holds [p; n] z (zval o cells a b f c)).
Proof.
  intros o edges cells X m f d a n b p D A Oc. eapply plots_two with (Inv := fun _ => True); [exact D|exact A|exact I|].
  intros g h w lim c G H Sw _ Hc. pose proof A as (_ & Hn & Hp & _).
  assert (Hm : c < m).
  { destruct (o_stream o || o_quiver o); [|now rewrite Nat.div_1_r in Hc]. pose proof (Nat.mul_div_le m 2). lia. }
  destruct (holds_comp c w [n; p] m _ Sw Hm) as (v & Ev & Hv).
  pose proof (zval_tr o cells a b f c n p v Hv) as Hz.
  destruct (nodal_two edges X a b n p g h G H) as (gu & hw & En & Hgu & Hhw).
  pose proof (holds_affine _ _ _ (o_xshift o) (o_xscale o) Hgu) as Hx.
  pose proof (holds_affine _ _ _ (o_yshift o) (o_yscale o) Hhw) as Hy.
  cbn [draw_comp]. rewrite Oc. unfold draw_contour. cbn [p_grid p_cells p_vals]. rewrite En. cbn [bind item nth_error]. rewrite Ev. cbn [bind].
  replace (takes_contour _ _ _) with true.
  2:{ unfold takes_contour. destruct Hx as (_ & -> & _). destruct Hy as (_ & -> & _). destruct Hz as (_ & -> & _).
      rewrite !Nat.eqb_refl. destruct (Nat.leb_spec 2 p); [|lia]. destruct (Nat.leb_spec 2 n); [|lia]. reflexivity. }
  cbn [bind]. eexists _, _. split; [reflexivity|]. split; [|exact I]. eexists _, _, _. split; [reflexivity|]. auto.
Qed.

(** Stream lines: two components at a time, coloured by their length (before
    scaling) unless a colour is given. *)
Theorem C90_stream :
  forall o edges cells X m f d a n b p,
    dataset edges cells X m f d -> only_axes cells a n b p ->
    o_contour o = false -> o_quiver o = false -> o_stream o = true ->
    plots o d (m / 2) [a; b] (fun c cs =>
      exists x y u v col, cs = [Streams x y u v col] /\
        holds [n] x (fun i => (mid_of edges X a (hd 0%nat i) + o_xshift o) * o_xscale o)%R /\
        holds [p] y (fun j => (mid_of edges X b (hd 0%nat j) + o_yshift o) * o_yscale o)%R /\
        holds [p; n] u (zval o cells a b f (2 * c)) /\ holds [p; n] v (zval o cells a b f (2 * c + 1)) /\
        if o_coloured o then col = None
        else exists s, col = Some s /\
               holds [p; n] s (fun x => let q := cell2 (length cells) a (nth 1%nat x 0%nat) b (hd 0%nat x) in
                 sqrt (f q (2 * c)%nat ^ 2 + f q (2 * c + 1)%nat ^ 2))%R).
Proof.
  intros o edges cells X m f d a n b p D A Oc Oq Os.
  replace (m / 2) with (m / (if o_stream o || o_quiver o then 2 else 1)) by (rewrite Os; reflexivity).
  eapply plots_two with (Inv := fun _ => True); [exact D|exact A|exact I|].
  intros g h w lim c G H Sw _ Hc. rewrite Os in Hc. cbn [orb] in Hc. pose proof A as (_ & Hn & Hp & _).
  pose proof (Nat.mul_div_le m 2) as Hm.
  destruct (holds_comp (2 * c) w [n; p] m _ Sw) as (u & Eu & Hu); [lia|].
  destruct (holds_comp (2 * c + 1) w [n; p] m _ Sw) as (v & Ev & Hv); [lia|].
  destruct (holds_rb (fun a b => sqrt (a * a + b * b)) u v _ _ _ Hu Hv) as (s & Es & Hs).
  pose proof (zval_tr o cells a b f _ n p u Hu) as Hzu. pose proof (zval_tr o cells a b f _ n p v Hv) as Hzv.
  destruct (nodal_two edges X a b n p g h G H) as (gu & hw & En & Hgu & Hhw).
  pose proof (holds_affine _ _ _ (o_xshift o) (o_xscale o) Hgu) as Hx.
  pose proof (holds_affine _ _ _ (o_yshift o) (o_yscale o) Hhw) as Hy.
  cbn [draw_comp]. rewrite Oc, Oq, Os. unfold draw_stream. cbn [p_grid p_cells p_vals]. rewrite Eu, Ev. cbn [bind]. rewrite Es, En. cbn [bind item nth_error].
  replace (takes_stream _ _ _ _) with true.
  2:{ unfold takes_stream. destruct Hx as (_ & -> & _). destruct Hy as (_ & -> & _). destruct Hzu as (_ & -> & _). destruct Hzv as (_ & -> & _).
      rewrite !Nat.eqb_refl. reflexivity. }
  cbn [bind]. eexists _, _. split; [reflexivity|]. split; [|exact I]. eexists _, _, _, _, _. split; [reflexivity|].
  split; [exact Hx|]. split; [exact Hy|]. split; [exact Hzu|]. split; [exact Hzv|].
  destruct (o_coloured o); [reflexivity|]. eexists. split; [reflexivity|]. apply holds_tr in Hs. eapply holds_ext; [exact Hs|].
  intros x Hx'. apply in_two in Hx' as (i & j & -> & _). cbn [rev app hd nth]. cbv zeta. f_equal. ring.
Qed.

(** Lineouts: one curve for every cell along the other axis. *)
Theorem C90_lineouts :
  forall o edges cells X m f d a n b p l,
    dataset edges cells X m f d -> only_axes cells a n b p ->
    o_contour o = false -> o_quiver o = false -> o_stream o = false -> o_lineouts o = Some l ->
    let along0 := (l =? 0)%Z in
    plots o d m [a; b] (fun c cs =>
      length cs = (if along0 then p else n) /\
      forall k call, nth_error cs k = Some call ->
        exists x y, call = Curve x y /\
          holds [if along0 then n else p] x
            (fun i => (mid_of edges X (if along0 then a else b) (hd 0%nat i) + o_xshift o) * o_xscale o)%R /\
          holds [if along0 then n else p] y
            (fun i => (f (if along0 then cell2 (length cells) a (hd 0%nat i) b k else cell2 (length cells) a k b (hd 0%nat i)) c
                       + o_yshift o) * o_yscale o)%R).
Proof.
  intros o edges cells X m f d a n b p l D A Oc Oq Os Ol along0.
  replace m with (m / (if o_stream o || o_quiver o then 2 else 1)) at 1 by (rewrite Oq, Os; apply Nat.div_1_r).
  eapply plots_two with (Inv := fun _ => True); [exact D|exact A|exact I|].
  intros g h w lim c G H Sw _ Hc. rewrite Oq, Os, Nat.div_1_r in Hc. pose proof A as (_ & Hn & Hp & _).
  destruct (holds_comp c w [n; p] m _ Sw Hc) as (v & Ev & Hv).
  destruct (nodal_two edges X a b n p g h G H) as (gu & hw & En & Hgu & Hhw).
  pose proof Sw as (_ & Sw' & _). pose proof Hv as (_ & Sv & _).
  cbn [draw_comp]. rewrite Oc, Oq, Os, Ol. unfold draw_lineouts. fold along0. cbn [p_grid p_cells p_vals]. rewrite Sw', En. cbn [app].
  unfold item. destruct along0; cbn [nth_error bind].
  - pose proof Hhw as (_ & Shw & _). rewrite Shw. destruct p as [|p']; [lia|]. cbn [bind]. rewrite Ev. cbn [bind]. rewrite Sv.
    cbn [firstn skipn app].
    set (row := fun k => tabulate [n] (fun idx => val v (firstn 1 idx ++ k :: skipn 1 idx))).
    assert (Hrow : forall k, k < S p' -> holds [n] (row k) (fun i => f (cell2 (length cells) a (hd 0%nat i) b k) c)).
    { intros k Hk. eapply holds_ext; [apply holds_tab|]. intros x Hx. apply in_one in Hx as (i & -> & Hi). cbn [firstn skipn app hd].
      rewrite (holds_val _ _ _ _ Hv) by (repeat (constructor; try assumption)). reflexivity. }
    rewrite (mapM_all_ok _ (fun k => Curve (affine (o_xshift o) (o_xscale o) gu) (affine (o_yshift o) (o_yscale o) (row k)))).
    2:{ intros k Hk. apply in_seq in Hk. destruct (Nat.eqb_spec (S p') 1); [lia|]. unfold takes_curve.
        destruct (holds_affine _ _ _ (o_xshift o) (o_xscale o) Hgu) as (_ & -> & _).
        match goal with |- context [shape (affine ?s ?t (tabulate ?q ?w))] => change (shape (affine s t (tabulate q w))) with q end.
        cbn [hd]. rewrite Nat.eqb_refl. reflexivity. }
    cbn [bind]. unfold scalar_at. rewrite Shw. cbn [Nat.eqb bind]. eexists _, _. split; [reflexivity|]. split; [|exact I].
    split; [rewrite map_length; apply seq_length|]. intros k call Ek.
    assert (Lk : k < S p') by (assert (Q : nth_error (List.map (fun k => Curve (affine (o_xshift o) (o_xscale o) gu) (affine (o_yshift o) (o_yscale o) (row k))) (seq 0 (S p'))) k <> None) by (rewrite Ek; discriminate); apply nth_error_Some in Q; rewrite map_length, seq_length in Q; exact Q).
    rewrite nth_error_map in Ek. rewrite (nth_error_nth' (seq 0 (S p')) 0) in Ek by (rewrite seq_length; exact Lk).
    rewrite seq_nth in Ek by exact Lk. cbn [option_map Nat.add] in Ek. injection Ek as <-.
    eexists _, _. split; [reflexivity|]. split; [apply (holds_affine _ _ _ _ _ Hgu)|apply (holds_affine _ _ _ _ _ (Hrow k Lk))].
  - pose proof Hgu as (_ & Sgu & _). rewrite Sgu. destruct n as [|n']; [lia|]. cbn [bind]. rewrite Ev. cbn [bind]. rewrite Sv.
    cbn [firstn skipn app].
    set (row := fun k => tabulate [p] (fun idx => val v (k :: idx))).
    assert (Hrow : forall k, k < S n' -> holds [p] (row k) (fun i => f (cell2 (length cells) a k b (hd 0%nat i)) c)).
    { intros k Hk. eapply holds_ext; [apply holds_tab|]. intros x Hx. apply in_one in Hx as (i & -> & Hi). cbn [hd].
      rewrite (holds_val _ _ _ _ Hv) by (repeat (constructor; try assumption)). reflexivity. }
    rewrite (mapM_all_ok _ (fun k => Curve (affine (o_xshift o) (o_xscale o) hw) (affine (o_yshift o) (o_yscale o) (row k)))).
    2:{ intros k Hk. apply in_seq in Hk. destruct (Nat.eqb_spec (S n') 1); [lia|]. unfold takes_curve.
        destruct (holds_affine _ _ _ (o_xshift o) (o_xscale o) Hhw) as (_ & -> & _).
        match goal with |- context [shape (affine ?s ?t (tabulate ?q ?w))] => change (shape (affine s t (tabulate q w))) with q end.
        cbn [hd]. rewrite Nat.eqb_refl. reflexivity. }
    cbn [bind]. unfold scalar_at. rewrite Sgu. cbn [Nat.eqb bind]. eexists _, _. split; [reflexivity|]. split; [|exact I].
    split; [rewrite map_length; apply seq_length|]. intros k call Ek.
    assert (Lk : k < S n') by (assert (Q : nth_error (List.map (fun k => Curve (affine (o_xshift o) (o_xscale o) hw) (affine (o_yshift o) (o_yscale o) (row k))) (seq 0 (S n'))) k <> None) by (rewrite Ek; discriminate); apply nth_error_Some in Q; rewrite map_length, seq_length in Q; exact Q).
    rewrite nth_error_map in Ek. rewrite (nth_error_nth' (seq 0 (S n')) 0) in Ek by (rewrite seq_length; exact Lk).
    rewrite seq_nth in Ek by exact Lk. cbn [option_map Nat.add] in Ek. injection Ek as <-.
    eexists _, _. split; [reflexivity|]. split; [apply (holds_affine _ _ _ _ _ Hhw)|apply (holds_affine _ _ _ _ _ (Hrow k Lk))].
Qed.
