(** * Model of the options the plot and animate commands work out before they
    draw: commands/plot.py 111-223, commands/animate.py 185-196 and 221-224,
    output/plot.py 60-83 (which keywords have an effect), 104-105, 240-242,
    523-525 and the positional arguments of its drawing calls.

    Values are exact rationals; "inf" and "nan" as limits are not modelled. *)
From Coq Require Import String Ascii List Arith ZArith QArith Bool.
From Verif Require Import Prelude NdArray DataSpace_Model Range_Model PlotCmd_Model.
Import ListNotations.
Open Scope list_scope.

Section Opt.
  (** [float(s)], [None] when it raises ValueError, and [f"{x}"] of a float. *)
  Context (pfloat : string -> option Q) (show : Q -> string).

  (** [float(s)], commands/plot.py 147-156. *)
  Definition to_float (s : string) : res Q := match pfloat s with Some q => Ok q | None => Err ValueError end.

  (** [l[k]] of the list [s.split(",")]. commands/plot.py 147-156, commands/animate.py 185-196. *)
  Definition part (s : string) (k : nat) : res string :=
    match nth_error (split_on "," s) k with Some t => Ok t | None => Err IndexError end.

  (** plot.py 146-157, animate.py 185-196: --xlim over --xmin and --xmax, and
      in the same way for y and z. *)
  Definition both_limits (lim : option string) (mm : option Q * option Q) : res (option Q * option Q) :=
    match given lim with
    | None => Ok mm
    | Some s =>
        let* s0 := part s 0 in
        let* a := to_float s0 in
        let* s1 := part s 1 in
        let* b := to_float s1 in
        Ok (Some a, Some b)
    end.

  (** output/plot.py 240-242, animate.py 221-224. *)
  Definition figsize_of (figsize : option string) : res (option (Z * Z)) :=
    match given figsize with
    | None => Ok None
    | Some s =>
        let* s0 := part s 0 in
        let* a := py_int s0 in
        let* s1 := part s 1 in
        let* b := py_int s1 in
        Ok (Some (a, b))
    end.

  (** plot.py 113-117: [args]. *)
  Definition args_of (arg : string) (scatter : bool) : string :=
    if scatter then (arg ++ ".")%string else arg.

  (** plot.py 126-128 and output/plot.py 104-106, 523-525: the aspect ratio set
      on the panel, if any.  [Axes.set_aspect] turns the text into a number,
      with "equal" for 1 and "auto" for none, and wants it positive. *)
  Definition aspect_set (fixaspect : bool) (aspect : option string) : res (option Q) :=
    match given aspect with
    | None => Ok (if fixaspect then Some 1%Q else None)
    | Some s =>
        if String.eqb s "equal" then Ok (Some 1%Q)
        else if String.eqb s "auto" then Ok None
        else let* q := to_float s in
             if Qle_bool q 0 then Err ValueError else Ok (Some q)
    end.

  (** plot.py 130-132; [click.Choice] lets only "0" and "1" pass. *)
  Definition lineouts_of (lineouts : option string) : res (option Z) :=
    match given lineouts with
    | None => Ok None
    | Some s => let* k := py_int s in Ok (Some k)
    end.

  (** [f"{x}"] of a limit. commands/plot.py 207. *)
  Definition show_limit (x : option Q) : string := match x with Some q => show q | None => "None"%string end.

  (** plot.py 205-208: [clevels] when --multiblock meets --contour. *)
  Definition clevels_of (multiblock contour : bool) (clevels : option string) (zmin zmax : option Q) : option string :=
    if multiblock && contour && match clevels with None => true | Some _ => false end
    then Some (show_limit zmin ++ ":" ++ show_limit zmax ++ ":10")%string
    else clevels.

  (** The options as they come from the command line. commands/plot.py 9-103. *)
  Record ropts := mk_ropts {
    r_xlim : option string; r_ylim : option string; r_zlim : option string;
    r_x : option Q * option Q;           (* --xmin, --xmax *)
    r_y : option Q * option Q;           (* --ymin, --ymax *)
    r_contour : bool;
    r_clevels : option string;
    r_nolegend : bool;
    r_arg : string;
    r_scatter : bool;
    r_lineouts : option string;
    r_cmd : copts                        (* the others; --zmin, --zmax as given *)
  }.

  (** What [output.plot] gets for every dataset. commands/plot.py 247. *)
  Record pvals := mk_pvals {
    v_x : option Q * option Q;
    v_y : option Q * option Q;
    v_z : option Q * option Q;
    v_clevels : option string;
    v_legend : bool;
    v_args : string;
    v_lineouts : option Z;
    v_num_axes : option nat
  }.

  (** Setting zmin and zmax, commands/plot.py 155-156. *)
  Definition with_z (o : copts) (z : option Q * option Q) : copts :=
    mk_copts (c_use o) (c_figure o) (c_subplots o) (c_multiblock o) (c_save o) (c_saveas o) (c_saveframes o) (c_batch o)
      (c_legend o) (c_forcelegend o) (fst z) (snd z) (c_zscale o) (c_globalrange o) (c_cutoff o) (c_show o).

  Section Data.
    Context {X : Type} (vals : X -> list Q) (ncomps : X -> nat).

    (** plot.py 111-223 in the order of the code; the datasets of the iterator
        are [l]. *)
    Definition prepare (o : ropts) (l : list (nat * ref * dset X)) : res pvals :=
      let c := r_cmd o in
      let* lineouts := lineouts_of (r_lineouts o) in
      let num_axes := if c_subplots c then Some (list_sum (List.map (fun e => ncomps (ds_data (snd e))) l)) else None in
      let* x := both_limits (r_xlim o) (r_x o) in
      let* y := both_limits (r_ylim o) (r_y o) in
      let* z := both_limits (r_zlim o) (c_zmin c, c_zmax c) in
      let* z := limits_of vals (with_z c z) l in
      let clevels := clevels_of (c_multiblock c) (r_contour o) (r_clevels o) (fst z) (snd z) in
      Ok (mk_pvals x y z clevels (negb (r_nolegend o)) (args_of (r_arg o) (r_scatter o)) lineouts num_axes).

    (** The command with its options, plot.py 111-297: what is passed for all
        datasets, and the rest as in PlotCmd_Model. *)
    Definition plot_full (o : ropts) (ds : dspace X) (p : pyplot) : res (pvals * (list pcall * pyplot * bool)) :=
      let* l := seen ds (c_use (r_cmd o)) in
      let* v := prepare o l in
      let* out := plot_cmd vals ncomps (with_z (r_cmd o) (v_z v)) ds p in
      Ok (v, out).
  End Data.
End Opt.

(** ** Positional arguments of the drawing calls *)

(** [*args] of a string: one argument for every character. output/plot.py 346. *)
Inductive parg := PX | PY | PChr (c : ascii).
(** output/plot.py 346. *)
Definition chars (s : string) : list parg := List.map PChr (list_ascii_of_string s).

(** [Axes.plot(x, y, ...)]: matplotlib takes the arguments in groups of two, and
    a third one if it is a string. Called in output/plot.py 346 and 434. *)
Fixpoint groups (l : list parg) : list (list parg) :=
  match l with
  | a :: b :: PChr c :: l' => [a; b; PChr c] :: groups l'
  | a :: b :: l' => [a; b] :: groups l'
  | [a] => [[a]]
  | [] => []
  end.

(** A curve: abscissae (None: the positions 0, 1, ...), ordinates and format.
    Whether matplotlib knows the format is not modelled. *)
Record curve := mk_curve { cv_x : option parg; cv_y : parg; cv_fmt : option ascii }.

(** A group of several arguments that ends with a string has it as format.
    Called in output/plot.py 346 and 434. *)
Definition curve_of (g : list parg) : option curve :=
  match g with
  | [a; b; PChr c] => Some (mk_curve (Some a) b (Some c))
  | [a; PChr c] => Some (mk_curve None a (Some c))
  | [a; b] => Some (mk_curve (Some a) b None)
  | [a] => Some (mk_curve None a None)
  | _ => None
  end.
(** Called in output/plot.py 346 and 434. *)
Fixpoint curves_of (gs : list (list parg)) : list curve :=
  match gs with
  | [] => []
  | g :: gs' => match curve_of g with Some c => c :: curves_of gs' | None => curves_of gs' end
  end.

(** output/plot.py 346 and 434: what [cax.plot(x, y, *args, ...)] draws. *)
Definition plotted (args : string) : list curve := curves_of (groups (PX :: PY :: chars args)).

(** The branches for 2-D data, output/plot.py 348-482. *)
Inductive branch2 := BContour | BQuiver | BStream | BLineouts | BMesh.

(** The positional arguments of the call.  contour takes at most four,
    pcolormesh three (its keyword arguments come before [*args] in the text,
    which makes no difference), streamplot has [density] as the fifth and gets
    it as a keyword as well; more raise TypeError.  quiver does not get
    [args]. output/plot.py 372, 406, 434 and 479-481. *)
Definition call2 (b : branch2) (args : string) : res (list curve) :=
  match b with
  | BLineouts => Ok (plotted args)
  | BQuiver => Ok []
  | BContour | BStream | BMesh => if (0 <? length (chars args))%nat then Err TypeError else Ok []
  end.

(** ** Keyword arguments *)

(** output/plot.py 60-83: the parameters of [plot] a keyword can set; any other
    one ends in [kwargs], which the function does not read. *)
Definition plot_params : list string :=
  ["figure"; "squeeze"; "num_axes"; "start_axes"; "num_subplot_row"; "num_subplot_col"; "streamline"; "sdensity";
   "quiver"; "contour"; "clevels"; "cnlevels"; "cont_label"; "diverging"; "lineouts";
   "xmin"; "xmax"; "xscale"; "xshift"; "ymin"; "ymax"; "yscale"; "yshift"; "zmin"; "zmax"; "zscale"; "zshift";
   "relax"; "style"; "rcParams"; "legend"; "label_prefix"; "colorbar"; "xlabel"; "ylabel"; "clabel"; "title";
   "subplot_titles"; "subplot_xlabels"; "subplot_ylabels"; "logx"; "logy"; "logz"; "fixaspect"; "aspect";
   "edgecolors"; "showgrid"; "hashtag"; "xkcd"; "color"; "markersize"; "linewidth"; "linestyle"; "figsize"; "jet"; "cmap"]%string.

(** plot.py 247: the value every parameter gets, [None] for its default. *)
Definition bound {V} (kw : list (string * V)) : list (option V) := List.map (fun p => aget p kw) plot_params.
