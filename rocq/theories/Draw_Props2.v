(** * C90, continued: arrows, mapped grids and what cannot be drawn *)
From Coq Require Import String Ascii List Arith ZArith Bool Lia Reals Lra.
From Verif Require Import Prelude PreludeFacts NdArray Ev_Model Ev_Arith Tools_Arr Draw_Model Draw_Spec Draw_Proofs Draw_Proofs2 Draw_Props Draw_Proofs3.
Import ListNotations.
Open Scope list_scope.
Open Scope nat_scope.

Lemma draw_all_err o nd d k e :
  comps_drawn o d = Ok (S k) -> draw_comp o nd d (o_zmin o, o_zmax o) 0 = Err e -> draw_all o nd d = Err e.
Proof. intros E F. unfold draw_all. rewrite E. cbn [bind seq loop]. rewrite F. reflexivity. Qed.

(** Arrows: with N the larger number of grid points, every (N/15)-th cell along
    both axes, starting at half of that; both components of an arrow are those of
    its cell. *)
Theorem C90_quiver :
  forall o edges cells X m f d a n b p,
    dataset edges cells X m f d -> only_axes cells a n b p ->
    o_contour o = false -> o_quiver o = true ->
    let skip := Nat.max (points edges n) (points edges p) / 15 in
    let at_ k := skip / 2 + k * skip in
    0 < skip ->
    plots o d (m / 2) [a; b] (fun c cs =>
      exists x y u v nx ny, cs = [Arrows x y u v] /\
        (forall i, i < nx <-> at_ i < n) /\ (forall j, j < ny <-> at_ j < p) /\
        holds [nx] x (fun i => (mid_of edges X a (at_ (hd 0%nat i)) + o_xshift o) * o_xscale o)%R /\
        holds [ny] y (fun j => (mid_of edges X b (at_ (hd 0%nat j)) + o_yshift o) * o_yscale o)%R /\
        holds [ny; nx] u (fun q => zval o cells a b f (2 * c) (List.map at_ q)) /\
        holds [ny; nx] v (fun q => zval o cells a b f (2 * c + 1) (List.map at_ q))).
Proof.
  intros o edges cells X m f d a n b p D A Oc Oq skip at_ Hs.
  replace (m / 2) with (m / (if o_stream o || o_quiver o then 2 else 1)) by (rewrite Oq, orb_true_r; reflexivity).
  eapply plots_two with (Inv := fun _ => True); [exact D|exact A|exact I|].
  intros g h w lim c G H Sw _ Hc. rewrite Oq, orb_true_r in Hc. pose proof (Nat.mul_div_le m 2) as Hm.
  destruct (nodal_two edges X a b n p g h G H) as (gu & hw & En & Hgu & Hhw).
  pose proof G as (_ & Sg & _). pose proof H as (_ & Sh & _). pose proof Sw as (Ww & Sw' & Vw).
  pose proof Hgu as (_ & Sgu & _). pose proof Hhw as (_ & Shw & _).
  destruct (strided_spec (skip / 2) skip n Hs) as (nx & Ex & Cx). destruct (strided_spec (skip / 2) skip p Hs) as (ny & Ey & Cy).
  cbn [draw_comp]. rewrite Oc, Oq. unfold draw_quiver. cbn [p_grid p_cells p_vals].
  change (item [g; h] 0) with (@Ok arr g). change (item [g; h] 1) with (@Ok arr h). cbn [bind]. rewrite Sg, Sh, En. cbn [hd bind].
  change (item [gu; hw] 0) with (@Ok arr gu). change (item [gu; hw] 1) with (@Ok arr hw). cbn [bind]. fold skip.
  destruct (Nat.eqb_spec skip 0); [lia|]. rewrite Sw'. cbn [app]. rewrite Sgu, Shw. cbn [List.map]. rewrite Ex, Ey.
  set (sx := List.map (fun k => skip / 2 + k * skip) (seq 0 nx)). set (sy := List.map (fun k => skip / 2 + k * skip) (seq 0 ny)).
  assert (Lx : length sx = nx) by (unfold sx; rewrite map_length; apply seq_length).
  assert (Ly : length sy = ny) by (unfold sy; rewrite map_length; apply seq_length).
  assert (Bx : forall i, In i sx -> i < n). { intros i Hi. apply in_map_iff in Hi as (k & <- & Hk). apply in_seq in Hk. apply Cx. lia. }
  assert (By : forall i, In i sy -> i < p). { intros i Hi. apply in_map_iff in Hi as (k & <- & Hk). apply in_seq in Hk. apply Cy. lia. }
  assert (Nx : forall i, i < nx -> nth i sx 0 = at_ i).
  { intros i Hi. unfold sx. rewrite (nth_indep _ 0 (skip / 2 + 0 * skip)) by (rewrite map_length, seq_length; exact Hi).
    rewrite (map_nth (fun k => skip / 2 + k * skip)), seq_nth by exact Hi. reflexivity. }
  assert (Ny : forall i, i < ny -> nth i sy 0 = at_ i).
  { intros i Hi. unfold sy. rewrite (nth_indep _ 0 (skip / 2 + 0 * skip)) by (rewrite map_length, seq_length; exact Hi).
    rewrite (map_nth (fun k => skip / 2 + k * skip)), seq_nth by exact Hi. reflexivity. }
  clearbody sx sy.
  assert (Tx : holds [nx] (take [sx] gu) (fun i => mid_of edges X a (at_ (hd 0 i)))).
  { pose proof (holds_take _ _ _ [sx] Hgu) as T. cbn [List.map] in T. rewrite Lx in T. eapply holds_ext; [apply T; constructor; [exact Bx|constructor]|].
    intros q Hq. apply in_one in Hq as (i & -> & Hi). cbn [pick combine List.map hd fst snd]. unfold pick. cbn [combine List.map hd fst snd]. now rewrite Nx. }
  assert (Ty : holds [ny] (take [sy] hw) (fun i => mid_of edges X b (at_ (hd 0 i)))).
  { pose proof (holds_take _ _ _ [sy] Hhw) as T. cbn [List.map] in T. rewrite Ly in T. eapply holds_ext; [apply T; constructor; [exact By|constructor]|].
    intros q Hq. apply in_one in Hq as (i & -> & Hi). unfold pick. cbn [combine List.map hd fst snd]. now rewrite Ny. }
  assert (Tw : shows [nx; ny] m (take [sx; sy; seq 0 m] w) (fun x c => f (cell2 (length cells) a (at_ (hd 0 x)) b (at_ (nth 1 x 0))) c)).
  { assert (Hw : holds [n; p; m] w (fun q => f (cell2 (length cells) a (hd 0 q) b (nth 1 q 0)) (nth 2 q 0))).
    { split; [exact Ww|]. split; [exact Sw'|]. intros q Hq. inversion Hq as [|i ? q' ? Hi Hq']; subst. apply in_two in Hq' as (j & k & -> & Hj & Hk).
      cbn [hd nth]. apply (Vw [i; j] k); [|exact Hk]. repeat (constructor; try assumption). }
    destruct (holds_take _ _ _ [sx; sy; seq 0 m] Hw) as (Wt & St & Vt).
    { constructor; [exact Bx|]. constructor; [exact By|]. constructor; [|constructor]. intros i Hi. apply in_seq in Hi. lia. }
    cbn [List.map] in St, Vt. rewrite Lx, Ly, seq_length in St, Vt. split; [exact Wt|]. split; [exact St|].
    intros q k Hq Hk. apply in_two in Hq as (i & j & -> & Hi & Hj). cbn [app hd nth]. rewrite Vt by (repeat (constructor; try assumption)).
    unfold pick. cbn [combine List.map fst snd hd nth]. rewrite Nx, Ny by assumption. rewrite seq_nth by exact Hk. reflexivity. }
  destruct (holds_comp (2 * c) _ _ _ _ Tw) as (u & Eu & Hu); [lia|]. destruct (holds_comp (2 * c + 1) _ _ _ _ Tw) as (v & Ev & Hv); [lia|].
  rewrite Eu, Ev. cbn [bind].
  assert (Zv : forall k q, holds [nx; ny] q (fun x => f (cell2 (length cells) a (at_ (hd 0 x)) b (at_ (nth 1 x 0))) k) ->
            holds [ny; nx] (affine (o_zshift o) (o_zscale o) (tr q)) (fun x => zval o cells a b f k (List.map at_ x))).
  { intros k q Hq. apply holds_tr in Hq. eapply holds_ext; [apply (holds_affine _ _ _ _ _ Hq)|]. intros x Hx.
    apply in_two in Hx as (i & j & -> & _). reflexivity. }
  apply Zv in Hu. apply Zv in Hv.
  pose proof (holds_affine _ _ _ (o_xshift o) (o_xscale o) Tx) as Hx. pose proof (holds_affine _ _ _ (o_yshift o) (o_yscale o) Ty) as Hy.
  replace (takes_arrows _ _ _ _) with true.
  2:{ unfold takes_arrows. destruct Hx as (_ & -> & _). destruct Hy as (_ & -> & _). destruct Hu as (_ & -> & _). destruct Hv as (_ & -> & _).
      rewrite !Nat.eqb_refl. reflexivity. }
  cbn [bind]. eexists _, _. split; [reflexivity|]. split; [|exact I]. eexists _, _, _, _, nx, ny. split; [reflexivity|].
  split; [exact Cx|]. split; [exact Cy|]. split; [exact Hx|]. split; [exact Hy|]. split; [exact Hu|exact Hv].
Qed.

(** No arrows can be drawn on a grid of fewer than 15 points along both axes. *)
Theorem C90_quiver_small :
  forall o edges cells X m f d a n b p,
    dataset edges cells X m f d -> only_axes cells a n b p ->
    o_contour o = false -> o_quiver o = true -> 2 <= m ->
    points edges n < 15 -> points edges p < 15 ->
    plot_data o d = Err ValueError.
Proof.
  intros o edges cells X m f d a n b p D A Oc Oq Hm Hn Hp. unfold plot_data.
  destruct (squeeze_axes2 _ _ _ _ _ _ _ _ _ _ D A) as (g & h & w & labels & E & L & G & H & Sw & El).
  pose proof D as (_ & _ & _ & Ec & _). rewrite Ec, E, L. cbn [Nat.ltb Nat.leb bind fst snd].
  assert (C : exists k, comps_drawn o (mk_pd [g; h] [n; p] w) = Ok (S k)).
  { pose proof (comps_of o (mk_pd [g; h] [n; p] w) _ _ _ Sw) as C. rewrite Oq, orb_true_r in C. rewrite C.
    assert (1 <= m / 2) by (apply (Nat.div_le_lower_bound m 2 1); lia). exists (pred (m / 2)). f_equal. lia. }
  destruct C as (k & C).
  rewrite (draw_all_err o 2 _ k ValueError C); [reflexivity|].
  destruct (nodal_two edges X a b n p g h G H) as (gu & hw & En & Hgu & Hhw).
  pose proof G as (_ & Sg & _). pose proof H as (_ & Sh & _).
  cbn [draw_comp]. rewrite Oc, Oq. unfold draw_quiver. cbn [p_grid p_cells p_vals].
  change (item [g; h] 0) with (@Ok arr g). change (item [g; h] 1) with (@Ok arr h). cbn [bind]. rewrite Sg, Sh, En. cbn [hd bind].
  change (item [gu; hw] 0) with (@Ok arr gu). change (item [gu; hw] 1) with (@Ok arr hw). cbn [bind].
  rewrite Nat.div_small by lia. reflexivity.
Qed.

(** ** Mapped grids *)

(** The plotted coordinate [k] of corner (i, j) of the cells; [q] is the pair
    (j, i), as Matplotlib wants it. *)
Definition corner_at (cells : list nat) (a b : nat) (X : nat -> list nat -> R) (k : nat) (q : list nat) : R :=
  box_mean (corner2 (length cells) a (nth 1 q 0) b (hd 0 q)) (X k).

Lemma mapped_two o cells X m f d a n b p cnt (Q : nat -> list call -> Prop) (Inv : option R * option R -> Prop) :
  cnt = m / (if o_stream o || o_quiver o then 2 else 1) ->
  mapped cells X m f d -> only_axes cells a n b p -> Inv (o_zmin o, o_zmax o) ->
  (forall g h w lim c,
     holds [S n; S p] g (fun x => corner_at cells a b X a (rev x)) -> holds [S n; S p] h (fun x => corner_at cells a b X b (rev x)) ->
     shows [n; p] m w (fun x c => f (cell2 (length cells) a (hd 0 x) b (nth 1 x 0)) c) ->
     Inv lim -> c < m / (if o_stream o || o_quiver o then 2 else 1) ->
     exists calls lim', draw_comp o 2 (mk_pd [g; h] [n; p] w) lim c = Ok (calls, lim') /\ Q c calls /\ Inv lim') ->
  exists calls labels, plot_data o d = Ok (calls, labels) /\
    length calls = cnt /\
    forall c cs, nth_error calls c = Some cs -> Q c cs.
Proof.
  intros -> D A I0 H. unfold plot_data.
  destruct (squeeze_mapped _ _ _ _ _ _ _ _ _ D A) as (g & h & w & labels & E & L & G & Hh & Sw).
  pose proof D as (_ & _ & _ & Ec & _). rewrite Ec, E, L. cbn [Nat.ltb Nat.leb bind fst snd].
  destruct (draw_all_spec o 2 (mk_pd [g; h] [n; p] w) _ Q Inv (comps_of o (mk_pd [g; h] [n; p] w) _ _ _ Sw) I0) as (out & Eo & Lo & Ho).
  - intros lim c Il Hc. apply H; auto.
    + eapply holds_ext; [exact G|]. intros x Hx. apply in_two in Hx as (i & j & -> & _). reflexivity.
    + eapply holds_ext; [exact Hh|]. intros x Hx. apply in_two in Hx as (i & j & -> & _). reflexivity.
  - rewrite Eo. cbn [bind]. exists out, labels. auto.
Qed.

Lemma nodal_mapped n p g h F H :
  holds [S n; S p] g F -> holds [S n; S p] h H ->
  exists u w, nodal_grid [g; h] [n; p] = Ok [u; w] /\
    holds [n; p] u (fun x => (F x + F (List.map S x)) / 2)%R /\ holds [n; p] w (fun x => (H x + H (List.map S x)) / 2)%R.
Proof.
  intros Hg Hh. pose proof Hg as (_ & Sg & _). pose proof Hh as (_ & Sh & _).
  assert (M : forall q K, holds [S n; S p] q K -> exists u, mid_corner q = Ok u /\ holds [n; p] u (fun x => (K x + K (List.map S x)) / 2)%R).
  { intros q K Hq. unfold mid_corner. pose proof Hq as (_ & -> & _). cbn [pred]. eexists. split; [reflexivity|].
    eapply holds_ext; [apply holds_tab|]. intros x Hx. apply in_two in Hx as (i & j & -> & Hi & Hj). cbv beta.
    rewrite !(holds_val _ _ _ _ Hq) by (constructor; [lia|]; constructor; [lia|constructor]). cbn [List.map]. lra. }
  destruct (M g F Hg) as (u & Eu & Hu). destruct (M h H Hh) as (w & Ew & Hw). exists u, w. split; [|auto].
  unfold nodal_grid, nodal_axis. cbn [length Nat.eqb combine seq mapM]. rewrite Sg, Sh. cbn [nth_error].
  destruct (Nat.eqb_spec (S n) n); [lia|]. destruct (Nat.eqb_spec (S p) p); [lia|]. rewrite !Nat.eqb_refl. rewrite Eu, Ew. reflexivity.
Qed.

(** Colour map on a mapped grid: cell (i, j) is drawn between its own four
    corners (averaged over the collapsed axes), unless there is exactly one cell
    more along the second axis than along the first. *)
Theorem C90_mapped :
  forall o cells X m f d a n b p,
    mapped cells X m f d -> only_axes cells a n b p ->
    o_contour o = false -> o_quiver o = false -> o_stream o = false -> o_lineouts o = None ->
    p <> S n ->
    exists calls labels, plot_data o d = Ok (calls, labels) /\ length calls = m /\
      forall c cs, nth_error calls c = Some cs ->
        exists x y z vmin vmax ext, cs = [Mesh x y z vmin vmax ext] /\
          holds [S p; S n] x (fun q => (corner_at cells a b X a q + o_xshift o) * o_xscale o)%R /\
          holds [S p; S n] y (fun q => (corner_at cells a b X b q + o_yshift o) * o_yscale o)%R /\
          holds [p; n] z (zval o cells a b f c) /\ limits o z vmin vmax.
Proof.
  intros o cells X m f d a n b p D A Oc Oq Os Ol Np.
  eapply mapped_two with (Inv := fun lim => o_diverging o = false -> lim = (o_zmin o, o_zmax o)); [rewrite Oq, Os; symmetry; apply Nat.div_1_r|exact D|exact A|reflexivity|].
  intros g h w (zmin, zmax) c G H Sw Il Hc. rewrite Oq, Os, Nat.div_1_r in Hc. pose proof A as (_ & Hn & Hp & _).
  destruct (holds_comp c w [n; p] m _ Sw Hc) as (v & Ev & Hv).
  pose proof (zval_tr o cells a b f c n p v Hv) as Hz.
  destruct (absmax_spec p n _ _ Hz) as (s & Es & Bs & Ws); [lia|lia|].
  cbn [draw_comp]. rewrite Oc, Oq, Os, Ol. unfold draw_mesh. cbn [p_grid p_cells p_vals].
  change (item [g; h] 0) with (@Ok arr g). change (item [g; h] 1) with (@Ok arr h). cbn [bind]. rewrite Ev. cbn [bind].
  pose proof Hz as (_ & Sz & _). rewrite Sz. change (item [p; n] 1) with (Ok n). change (item [p; n] 0) with (Ok p). cbn [bind].
  pose proof G as (_ & Sg & _). pose proof H as (_ & Sh & _). rewrite Sg, Sh. cbn [hd].
  destruct (Nat.eqb_spec (S n) n); [lia|]. destruct (Nat.eqb_spec (S n) p); [lia|]. cbn [orb bind]. rewrite Sg. cbn [length Nat.ltb Nat.leb].
  set (z := affine (o_zshift o) (o_zscale o) (tr v)) in *.
  pose proof (holds_tr _ _ _ (holds_affine _ _ _ (o_xshift o) (o_xscale o) G)) as Hx.
  pose proof (holds_tr _ _ _ (holds_affine _ _ _ (o_yshift o) (o_yscale o) H)) as Hy.
  cbn [rev app] in Hx, Hy.
  assert (Hx2 : holds [S p; S n] (tr (affine (o_xshift o) (o_xscale o) g)) (fun q => (corner_at cells a b X a q + o_xshift o) * o_xscale o)%R).
  { eapply holds_ext; [exact Hx|]. intros q _. cbv beta. now rewrite rev_involutive. }
  assert (Hy2 : holds [S p; S n] (tr (affine (o_yshift o) (o_yscale o) h)) (fun q => (corner_at cells a b X b q + o_yshift o) * o_yscale o)%R).
  { eapply holds_ext; [exact Hy|]. intros q _. cbv beta. now rewrite rev_involutive. }
  assert (T : takes_mesh (tr (affine (o_xshift o) (o_xscale o) g)) (tr (affine (o_yshift o) (o_yscale o) h)) z = true).
  { unfold takes_mesh. destruct Hx as (_ & -> & _). destruct Hy as (_ & -> & _). rewrite Sz. rewrite !Nat.eqb_refl. cbn [andb]. apply orb_true_r. }
  destruct (o_diverging o) eqn:Od.
  - rewrite Es. cbn [bind]. rewrite T. eexists _, _. split; [reflexivity|]. split; [|discriminate].
    eexists _, _, _, _, _, _. split; [reflexivity|]. split; [exact Hx2|]. split; [exact Hy2|]. split; [exact Hz|].
    unfold limits. rewrite Od. exists s. auto.
  - cbn [bind]. rewrite T. specialize (Il eq_refl). injection Il as -> ->. eexists _, _. split; [reflexivity|]. split; [|reflexivity].
    eexists _, _, _, _, _, _. split; [reflexivity|]. split; [exact Hx2|]. split; [exact Hy2|]. split; [exact Hz|].
    unfold limits. rewrite Od. auto.
Qed.

(** In that case only the middle of two opposite corners of each cell is handed
    over, so the cells drawn are not those of the grid. *)
Theorem C90_mapped_centres :
  forall o cells X m f d a n b,
    mapped cells X m f d -> only_axes cells a n b (S n) ->
    o_contour o = false -> o_quiver o = false -> o_stream o = false -> o_lineouts o = None -> o_diverging o = false ->
    exists calls labels, plot_data o d = Ok (calls, labels) /\ length calls = m /\
      forall c cs, nth_error calls c = Some cs ->
        exists x y z ext, cs = [Mesh x y z (o_zmin o) (o_zmax o) ext] /\
          holds [S n; n] x (fun q => ((corner_at cells a b X a q + corner_at cells a b X a (List.map S q)) / 2 + o_xshift o) * o_xscale o)%R /\
          holds [S n; n] y (fun q => ((corner_at cells a b X b q + corner_at cells a b X b (List.map S q)) / 2 + o_yshift o) * o_yscale o)%R /\
          holds [S n; n] z (zval o cells a b f c).
Proof.
  intros o cells X m f d a n b D A Oc Oq Os Ol Od.
  eapply mapped_two with (Inv := fun lim => lim = (o_zmin o, o_zmax o)); [rewrite Oq, Os; symmetry; apply Nat.div_1_r|exact D|exact A|reflexivity|].
  intros g h w lim c G H Sw -> Hc. rewrite Oq, Os, Nat.div_1_r in Hc. pose proof A as (_ & Hn & Hp & _).
  destruct (holds_comp c w [n; S n] m _ Sw Hc) as (v & Ev & Hv).
  pose proof (zval_tr o cells a b f c n (S n) v Hv) as Hz.
  destruct (nodal_mapped n (S n) g h _ _ G H) as (u & k & En & Hu & Hk).
  cbn [draw_comp]. rewrite Oc, Oq, Os, Ol. unfold draw_mesh. cbn [p_grid p_cells p_vals].
  change (item [g; h] 0) with (@Ok arr g). change (item [g; h] 1) with (@Ok arr h). cbn [bind]. rewrite Ev. cbn [bind].
  pose proof Hz as (_ & Sz & _). rewrite Sz. change (item [S n; n] 1) with (Ok n). change (item [S n; n] 0) with (Ok (S n)). cbn [bind].
  pose proof G as (_ & Sg & _). pose proof H as (_ & Sh & _). rewrite Sg, Sh. cbn [hd]. rewrite Nat.eqb_refl, orb_true_r.
  rewrite En. cbn [bind]. change (item [u; k] 0) with (@Ok arr u). change (item [u; k] 1) with (@Ok arr k). cbn [bind].
  pose proof Hu as (_ & Su & _). rewrite Su. cbn [length Nat.ltb Nat.leb]. rewrite Od. cbn [bind].
  pose proof (holds_tr _ _ _ (holds_affine _ _ _ (o_xshift o) (o_xscale o) Hu)) as Hx.
  pose proof (holds_tr _ _ _ (holds_affine _ _ _ (o_yshift o) (o_yscale o) Hk)) as Hy.
  cbn [rev app] in Hx, Hy.
  replace (takes_mesh _ _ _) with true.
  2:{ unfold takes_mesh. destruct Hx as (_ & -> & _). destruct Hy as (_ & -> & _). rewrite Sz. rewrite !Nat.eqb_refl. reflexivity. }
  eexists _, _. split; [reflexivity|]. split; [|reflexivity]. eexists _, _, _, _. split; [reflexivity|].
  split; [|split; [|exact Hz]].
  - eapply holds_ext; [exact Hx|]. intros q Hq. apply in_two in Hq as (i & j & -> & _). reflexivity.
  - eapply holds_ext; [exact Hy|]. intros q Hq. apply in_two in Hq as (i & j & -> & _). reflexivity.
Qed.

(** Contour lines on a mapped grid: an exception, or, with as many cells along
    both axes, the value of cell (j, i) at the middle of cell (i, j). *)
Theorem C90_mapped_contour :
  forall o cells X m f d a n b p,
    mapped cells X m f d -> only_axes cells a n b p -> o_contour o = true ->
    (n <> p -> 2 <= m -> plot_data o d = Err TypeError) /\
    (n = p ->
     exists calls labels, plot_data o d = Ok (calls, labels) /\
      forall c cs, nth_error calls c = Some cs ->
        exists x y z, cs = [Contours x y z] /\
          holds [n; n] x (fun q => ((corner_at cells a b X a (rev q) + corner_at cells a b X a (rev (List.map S q))) / 2 + o_xshift o) * o_xscale o)%R /\
          holds [n; n] y (fun q => ((corner_at cells a b X b (rev q) + corner_at cells a b X b (rev (List.map S q))) / 2 + o_yshift o) * o_yscale o)%R /\
          holds [n; n] z (zval o cells a b f c)).
Proof.
  intros o cells X m f d a n b p D A Oc. pose proof A as (_ & Hn & Hp & _). split.
  - intros Nnp Hm. unfold plot_data.
    destruct (squeeze_mapped _ _ _ _ _ _ _ _ _ D A) as (g & h & w & labels & E & L & G & H & Sw).
    pose proof D as (_ & _ & _ & Ec & _). rewrite Ec, E, L. cbn [Nat.ltb Nat.leb bind fst snd].
    assert (C : exists k, comps_drawn o (mk_pd [g; h] [n; p] w) = Ok (S k)).
    { rewrite (comps_of o (mk_pd [g; h] [n; p] w) _ _ _ Sw). destruct (o_stream o || o_quiver o).
      - assert (1 <= m / 2) by (apply (Nat.div_le_lower_bound m 2 1); lia). exists (pred (m / 2)). f_equal. lia.
      - rewrite Nat.div_1_r. exists (pred m). f_equal. lia. }
    destruct C as (k & C). rewrite (draw_all_err o 2 _ k TypeError C); [reflexivity|].
    destruct (nodal_mapped n p g h _ _ G H) as (u & q & En & Hu & Hq).
    destruct (holds_comp 0 w [n; p] m _ Sw) as (v & Ev & Hv); [lia|].
    pose proof (zval_tr o cells a b f 0 n p v Hv) as (_ & Sz & _).
    cbn [draw_comp]. rewrite Oc. unfold draw_contour. cbn [p_grid p_cells p_vals]. rewrite En. cbn [bind].
    change (item [u; q] 0) with (@Ok arr u). change (item [u; q] 1) with (@Ok arr q). cbn [bind]. rewrite Ev. cbn [bind].
    replace (takes_contour _ _ _) with false; [reflexivity|]. unfold takes_contour. rewrite Sz.
    destruct (holds_affine _ _ _ (o_xshift o) (o_xscale o) Hu) as (_ & -> & _). destruct (holds_affine _ _ _ (o_yshift o) (o_yscale o) Hq) as (_ & -> & _).
    destruct (Nat.eqb_spec n p); [contradiction|]. cbn [andb]. now rewrite andb_false_r.
  - intros <-.
    assert (M : exists calls labels, plot_data o d = Ok (calls, labels) /\
       length calls = m / (if o_stream o || o_quiver o then 2 else 1) /\
      forall c cs, nth_error calls c = Some cs ->
        exists x y z, cs = [Contours x y z] /\
          holds [n; n] x (fun q => ((corner_at cells a b X a (rev q) + corner_at cells a b X a (rev (List.map S q))) / 2 + o_xshift o) * o_xscale o)%R /\
          holds [n; n] y (fun q => ((corner_at cells a b X b (rev q) + corner_at cells a b X b (rev (List.map S q))) / 2 + o_yshift o) * o_yscale o)%R /\
          holds [n; n] z (zval o cells a b f c)).
    2:{ destruct M as (calls & labels & E & _ & Q). exists calls, labels. auto. }
    eapply mapped_two with (Inv := fun _ => True); [reflexivity|exact D|exact A|exact I|].
    intros g h w lim c G H Sw _ Hc.
    assert (Hm : c < m).
    { destruct (o_stream o || o_quiver o); [|now rewrite Nat.div_1_r in Hc]. pose proof (Nat.mul_div_le m 2). lia. }
    destruct (holds_comp c w [n; n] m _ Sw Hm) as (v & Ev & Hv).
    pose proof (zval_tr o cells a b f c n n v Hv) as Hz.
    destruct (nodal_mapped n n g h _ _ G H) as (u & q & En & Hu & Hq).
    pose proof (holds_affine _ _ _ (o_xshift o) (o_xscale o) Hu) as Hx. pose proof (holds_affine _ _ _ (o_yshift o) (o_yscale o) Hq) as Hy.
    cbn [draw_comp]. rewrite Oc. unfold draw_contour. cbn [p_grid p_cells p_vals]. rewrite En. cbn [bind].
    change (item [u; q] 0) with (@Ok arr u). change (item [u; q] 1) with (@Ok arr q). cbn [bind]. rewrite Ev. cbn [bind].
    replace (takes_contour _ _ _) with true.
    2:{ unfold takes_contour. destruct Hx as (_ & -> & _). destruct Hy as (_ & -> & _). destruct Hz as (_ & -> & _).
        rewrite !Nat.eqb_refl. destruct (Nat.leb_spec 2 n); [|lia]. reflexivity. }
    cbn [bind]. eexists _, _. split; [reflexivity|]. split; [|exact I]. eexists _, _, _. split; [reflexivity|]. auto.
Qed.

(** ** What cannot be plotted *)

(** More than two axes of several cells, or none. *)
Theorem C90_dims :
  forall o d,
    (2 < live_dims (p_cells d) -> plot_data o d = Err ValueError) /\
    (Forall (fun n => n = 1) (p_cells d) -> p_cells d <> [] -> length (p_cells d) <= 6 ->
     length (p_grid d) = length (p_cells d) ->
     (exists m, shape (p_vals d) = p_cells d ++ [m]) -> plot_data o d = Err IndexError).
Proof.
  intros o d. split.
  - intros H. unfold plot_data. destruct (Nat.ltb_spec 2 (live_dims (p_cells d))); [reflexivity|lia].
  - intros H1 NE L6 Lg (m & Sv). unfold plot_data.
    assert (L0 : live_dims (p_cells d) = 0).
    { unfold live_dims. induction H1 as [|n l -> Hl IH]; [reflexivity|]. cbn. 
      destruct l; [reflexivity|]. clear IH. assert (Q : forall q, Forall (fun n => n = 1) q -> length (filter (fun n => negb (n =? 1)) q) = 0).
      { induction 1 as [|? ? -> _ IH]; [reflexivity|exact IH]. } apply Q. exact Hl. }
    assert (Pos : 0 < length (p_cells d)) by (destruct (p_cells d); [contradiction|cbn; lia]).
    rewrite L0. cbn [Nat.ltb Nat.leb]. unfold squeeze_data. rewrite Lg. destruct (Nat.leb_spec (length (p_cells d)) 0); [lia|].
    destruct (collapsed_spec (p_cells d)) as (idx & Ei & O). rewrite Ei. cbn [bind].
    assert (M : forall j, mem j idx = (j <? length (p_cells d))).
    { intros j. rewrite O. destruct (nth_error (p_cells d) j) as [c|] eqn:E.
      - assert (j < length (p_cells d)) by (apply nth_error_Some; congruence). rewrite Forall_forall in H1. rewrite (H1 c (nth_error_In _ _ E)).
        destruct (Nat.ltb_spec j (length (p_cells d))); [reflexivity|lia].
      - apply nth_error_None in E. destruct (Nat.ltb_spec j (length (p_cells d))); [lia|reflexivity]. }
    assert (DN : forall A (l : list A) k, k + length l <= length (p_cells d) -> drop_at k idx l = []).
    { intros A. induction l as [|x l IH]; intros k Hk; [reflexivity|]. cbn [drop_at]. fold (mem k idx). rewrite M.
      cbn [length] in Hk. destruct (Nat.ltb_spec k (length (p_cells d))); [|lia]. apply IH. lia. }
    assert (NI : idx <> []) by (intros ->; specialize (M 0); apply Nat.ltb_lt in Pos; rewrite Pos in M; discriminate M).
    assert (B6 : existsb (fun i => 6 <=? i) idx = false).
    { destruct (existsb _ idx) eqn:B; [|reflexivity]. apply existsb_exists in B as (i & Hi & B). apply Nat.leb_le in B.
      apply mem_In in Hi. rewrite M in Hi. apply Nat.ltb_lt in Hi. lia. }
    assert (Sq : exists w, squeeze_axes idx (p_vals d) = Ok w).
    { unfold squeeze_axes. replace (forallb _ idx) with true; [eauto|]. symmetry. apply forallb_forall. intros k Hk. apply mem_In in Hk.
      rewrite M in Hk. apply Nat.ltb_lt in Hk. rewrite Sv, nth_error_app1 by exact Hk.
      destruct (nth_error (p_cells d) k) as [c|] eqn:E; [|apply nth_error_None in E; lia]. rewrite Forall_forall in H1.
      rewrite (H1 c (nth_error_In _ _ E)). reflexivity. }
    destruct Sq as (w & Sq). destruct idx as [|i0 idx0]; [contradiction|]. cbv zeta iota. rewrite B6, Sq. cbn [bind]. rewrite (DN _ (List.map squeeze_all (p_grid d))) by (rewrite map_length, Lg; lia). reflexivity.
Qed.
