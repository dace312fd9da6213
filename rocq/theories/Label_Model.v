(** * Model of the text on a figure of output/plot.py: axis labels and titles
    (210-336), labels of components (341), contour levels (353-367), colour
    bars and the legend (419-507), scales and limits of the axes (509-527).
    Each call on a matplotlib object is an event.  What is drawn is Draw_Model
    and is taken to succeed here, apart from the colours of line-outs; the
    number of axes of a new figure is Plot_Model.  Not modelled: fonts,
    colours, --hashtag, --xkcd, the aspect ratio and [plt.autoscale]. *)
From Coq Require Import String Ascii List Arith ZArith QArith Bool.
From Verif Require Import Prelude Write_Model.
Import ListNotations.
Open Scope list_scope.

Inductive levels := LCount (n : Z) | LAt (ls : list Q).

(** Calls on the figure and its axes, output/plot.py 264-333, 338-527. *)
Inductive event :=
| SupTitle (s : string) | SupX (s : string) | SupY (s : string)     (* of the figure *)
| Title (k : nat) (s : string) | Xlabel (k : nat) (s : string) | Ylabel (k : nat) (s : string)
| AxisOff (k : nat)
| Line (k : nat) (label : option string)             (* Axes.plot *)
| Contour (k : nat) (l : levels)                     (* Axes.contour *)
| Arrow (k : nat) | Stream (k : nat) | Mesh (k : nat)
| Bar (k : nat) (label : string)
| Legend (k : nat) | Text (k : nat) (s : string)
| Grid (k : nat) (on : bool) | LogX (k : nat) | LogY (k : nat)
| Xlim (k : nat) (lo hi : option Q) | Ylim (k : nat) (lo hi : option Q).

(** Arguments of [plot], output/plot.py 60-77. *)
Record lopts := mk_lopts {
  l_xlabel : option string; l_ylabel : option string; l_clabel : option string; l_title : option string;
  l_sub_titles : option string; l_sub_xlabels : option string; l_sub_ylabels : option string;
  l_xshift : Q; l_xscale : Q; l_yshift : Q; l_yscale : Q; l_zscale : Q;
  l_squeeze : bool; l_start : nat; l_prefix : string;
  l_contour : bool; l_cnlevels : option Z; l_clevels : option string;
  l_quiver : bool; l_stream : bool; l_lineouts : option Z;
  l_coloured : bool; l_colorbar : bool; l_legend : bool;
  l_grid : bool; l_logx : bool; l_logy : bool;
  l_xmin : option Q; l_xmax : option Q; l_ymin : option Q; l_ymax : option Q
}.

(** [bool(s)] of a string or None. output/plot.py 304-308, 312-330. *)
Definition filled (s : option string) : option string :=
  match s with Some t => if String.eqb t "" then None else Some t | None => None end.

Definition at_axis (l : list string) (k : nat) : res string :=
  match nth_error l k with Some s => Ok s | None => Err IndexError end.

(** output/plot.py 214, 218, 224, 228. *)
Definition times : string := " $\times$ ".

Section Labels.
  (** [f"{v:.2e}"] and [f"{v:.3e}"] *)
  Context (fmt2 fmt3 : Q -> string).
  (** Python's [float(str)]; None: ValueError *)
  Context (pfloat : string -> option Q).

  (** output/plot.py 211-220 *)
  Definition x_label (o : lopts) (axes : list string) : res string :=
    match l_xlabel o with
    | Some s => Ok s
    | None =>
        let* x := at_axis axes (match l_lineouts o with Some 1%Z => 1 | _ => 0 end) in
        Ok (if negb (Qeq_bool (l_xshift o) 0) && negb (Qeq_bool (l_xscale o) 1) then
              ("(" ++ x ++ " + " ++ fmt2 (l_xshift o) ++ ")" ++ times ++ fmt2 (l_xscale o))%string
            else if negb (Qeq_bool (l_xshift o) 0) then (x ++ " + " ++ fmt2 (l_xshift o))%string
            else if negb (Qeq_bool (l_xscale o) 1) then (x ++ times ++ fmt2 (l_xscale o))%string
            else x)
    end.

  (** output/plot.py 221-230; the second and third test are of the options of
      the x axis. *)
  Definition y_label (o : lopts) (nd : nat) (axes : list string) : res (option string) :=
    match l_ylabel o, l_lineouts o with
    | None, None =>
        if (nd =? 2)%nat then
          let* y := at_axis axes 1 in
          Ok (Some (if negb (Qeq_bool (l_yshift o) 0) && negb (Qeq_bool (l_yscale o) 1) then
                      ("(" ++ y ++ " + " ++ fmt2 (l_yshift o) ++ ")" ++ times ++ fmt2 (l_yscale o))%string
                    else if negb (Qeq_bool (l_xshift o) 0) then (y ++ " + " ++ fmt2 (l_yshift o))%string
                    else if negb (Qeq_bool (l_xscale o) 1) then (y ++ times ++ fmt2 (l_yscale o))%string
                    else y))
        else Ok None
    | l, _ => Ok l
    end.

  (** output/plot.py 231-237 *)
  Definition c_label (o : lopts) : option string :=
    if Qeq_bool (l_zscale o) 1 then l_clabel o
    else Some (match filled (l_clabel o) with
               | Some s => (s ++ times ++ fmt3 (l_zscale o))%string
               | None => ("$\times$ " ++ fmt3 (l_zscale o))%string
               end).

  (** output/plot.py 312-327: the [k]-th of a comma-separated list or "" *)
  Definition sub_text (l : option string) (k : nat) : string :=
    match filled l with
    | Some s => if (k <? length (split_on "," s))%nat then nth k (split_on "," s) ""%string else ""%string
    | None => ""%string
    end.

  Definition sub_labels (o : lopts) (k : nat) : list event :=
    [Xlabel k (sub_text (l_sub_xlabels o) k); Ylabel k (sub_text (l_sub_ylabels o) k)]
    ++ match filled (Some (sub_text (l_sub_titles o) k)) with Some t => [Title k t] | None => [] end.

  (** output/plot.py 304-309. *)
  Definition sup (c : string -> event) (s : option string) : list event :=
    match filled s with Some t => [c t] | None => [] end.

  (** output/plot.py 258-336: [have] says that the figure has axes already,
      [num] is [num_comps] and [nax] the number of axes of the new figure.
      [set_ylabel(None)] leaves an empty label. *)
  Definition label_axes (o : lopts) (have : bool) (num nax : nat) (x : string) (y : option string) : list event :=
    if have then []
    else if l_squeeze o then
      [Xlabel 0 x; Ylabel 0 (match y with Some s => s | None => ""%string end)]
      ++ match l_title o with Some t => [Title 0 t] | None => [] end
    else
      List.map AxisOff (seq num (nax - num))
      ++ sup SupTitle (l_title o) ++ sup SupX (Some x) ++ sup SupY y
      ++ flat_map (sub_labels o) (seq 0 nax).

  (** output/plot.py 340; [n] components are drawn. *)
  Definition comp_label (o : lopts) (n c : nat) : string :=
    if (1 <? n)%nat then Write_Model.strip "_" (l_prefix o ++ "_c" ++ show_Z (Z.of_nat c))%string else l_prefix o.

  (** [np.linspace(a, b, n)]. output/plot.py 358. *)
  Definition linspace (a b : Q) (n : Z) : res (list Q) :=
    if (n <? 0)%Z then Err ValueError
    else Ok (List.map (fun i => if (n =? 1)%Z then a else (a + inject_Z (Z.of_nat i) * ((b - a) / inject_Z (n - 1)))%Q)
                      (seq 0 (Z.to_nat n))).

  Definition to_float (s : string) : res Q := match pfloat s with Some q => Ok q | None => Err ValueError end.

  (** matplotlib refuses contour levels that do not increase, output/plot.py 372. *)
  Fixpoint increasing (l : list Q) : bool :=
    match l with
    | a :: ((b :: _) as l') => negb (Qle_bool b a) && increasing l'
    | _ => true
    end.

  (** output/plot.py 353-364.  matplotlib turns the strings of an array into
      numbers and wants them increasing, ValueError otherwise. *)
  Definition contour_levels (o : lopts) : res levels :=
    match l_cnlevels o with
    | Some (Zpos _ as n) | Some (Zneg _ as n) => Ok (LCount (n - 1))
    | _ =>
        match filled (l_clevels o) with
        | None => Ok (LCount 10)
        | Some s =>
            let* ls :=
              if has_char ":" s then
                match split_on ":" s with
                | a :: b :: n :: _ =>
                    let* a := to_float a in
                    let* b := to_float b in
                    let* n := py_int n in
                    linspace a b n
                | [a; b] => let* _ := to_float a in let* _ := to_float b in Err IndexError
                | _ => Err IndexError
                end
              else mapM to_float (filter (fun t => negb (String.eqb t "")) (split_on "," s)) in
            if increasing ls then Ok (LAt ls) else Err ValueError
        end
    end.

  Definition lone (l : levels) : bool := match l with LAt [_] => true | _ => false end.

  (** What the loop over the components changes: whether there is a colour,
      [colorbar] and [legend]. output/plot.py 366, 427, 440, 441. *)
  Definition lstate := (bool * bool * bool)%type.

  (** output/plot.py 343-481, the drawing of one component: the events, the
      state and the label left.  [lines] is [num_lines]; with one line
      [line/(num_lines - 1)] is a division by zero. *)
  Definition draw_one (o : lopts) (nd : nat) (axes : list string) (lines : nat) (k : nat) (label : string)
      (st : lstate) : res (list event * lstate * string) :=
    let '(col, bar, leg) := st in
    match nd with
    | 1%nat => Ok ([Line k (Some label)], st, label)
    | 2%nat =>
        let* r :=
          if l_contour o then
            let* l := contour_levels o in
            Ok ([Contour k l], (col, if lone l then false else bar, leg), label)
          else if l_quiver o then Ok ([Arrow k], st, label)
          else if l_stream o then Ok ([Stream k], st, label)
          else match l_lineouts o with
               | Some l =>
                   let* other := at_axis axes (if (l =? 0)%Z then 1 else 0) in
                   let text := match filled (c_label o) with Some s => s | None => other end in
                   if (lines =? 1)%nat then Err ZeroDivisionError
                   else Ok (repeat (Line k None) lines ++ [Bar k text],
                            ((if (lines =? 0)%nat then col else true), false, false), text)
               | None => Ok ([Mesh k], st, label)
               end in
        let '(evs, (col, bar, leg), label) := r in
        Ok (evs ++ (if negb col && bar && negb (l_stream o)
                    then [Bar k (match c_label o with Some s => s | None => ""%string end)] else []),
            (col, bar, leg), label)
    | _ => Err ValueError
    end.

  (** output/plot.py 490-527 *)
  Definition format_one (o : lopts) (nd : nat) (k : nat) (label : string) (leg : bool) : list event :=
    [Grid k (l_grid o)]
    ++ (if leg then [if (nd =? 1)%nat && negb (String.eqb label "") then Legend k else Text k label] else [])
    ++ (if l_logx o then [LogX k] else []) ++ (if l_logy o then [LogY k] else [])
    ++ match l_xmin o, l_xmax o with None, None => [] | a, b => [Xlim k a b] end
    ++ match l_ymin o, l_ymax o with None, None => [] | a, b => [Ylim k a b] end.

  Fixpoint comp_loop (o : lopts) (nd n : nat) (axes : list string) (lines : nat) (cs : list nat) (st : lstate)
      : res (list event) :=
    match cs with
    | [] => Ok []
    | c :: cs' =>
        let k := if l_squeeze o then 0%nat else (c + l_start o)%nat in
        let* r := draw_one o nd axes lines k (comp_label o n c) st in
        let '(evs, st, label) := r in
        let* rest := comp_loop o nd n axes lines cs' st in
        Ok (evs ++ format_one o nd k label (snd st) ++ rest)
    end.

  (** output/plot.py 210-527 for [n] components on axes enough for all of
      them. *)
  Definition label_events (o : lopts) (nd n : nat) (axes : list string) (lines : nat) (have : bool)
      (num nax : nat) : res (list event) :=
    let* x := x_label o axes in
    let* y := y_label o nd axes in
    let* evs := comp_loop o nd n axes lines (seq 0 n) (l_coloured o, l_colorbar o, l_legend o) in
    Ok (label_axes o have num nax x y ++ evs).
End Labels.
