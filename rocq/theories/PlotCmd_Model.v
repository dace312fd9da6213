(** * Model of the plot command (commands/plot.py 115-297): which dataset is
    drawn into which figure with which label and limits, and what the saved
    files show.  The drawing itself is Draw_Model and Plot_Model; it is taken
    to succeed here.  --xlim and the like (146-157), the default contour levels
    of --multiblock --contour (205-208) and --no-legend are in PlotOpt_Model. *)
From Coq Require Import String Ascii List Arith ZArith QArith Bool.
From Verif Require Import Prelude NdArray Sort DataSpace_Model Range_Model.
Import ListNotations.
Open Scope list_scope.

(** ** pyplot *)

(** What matters of pyplot: the open figures by number, each with the datasets
    drawn into it, the current figure and the files written, oldest first,
    with what the figure showed then.
    matplotlib, used by output/plot.py 243-250 and commands/plot.py 267-296. *)
Record pyplot := mk_py {
  py_figs : list (Z * list ref);
  py_cur : option Z;
  py_files : list (string * list ref)
}.

(** An open figure by its number, [plt.figure], output/plot.py 246-250. *)
Fixpoint fig_get (k : Z) (m : list (Z * list ref)) : option (list ref) :=
  match m with [] => None | (j, v) :: m' => if (k =? j)%Z then Some v else fig_get k m' end.
(** What is drawn in it, output/plot.py 246-250. *)
Fixpoint fig_set (k : Z) (v : list ref) (m : list (Z * list ref)) : list (Z * list ref) :=
  match m with
  | [] => [(k, v)]
  | (j, w) :: m' => if (k =? j)%Z then (j, v) :: m' else (j, w) :: fig_set k v m'
  end.

(** The number of a new figure: one more than the largest one in use. output/plot.py 244. *)
Definition next_fig (m : list (Z * list ref)) : Z :=
  (fold_right (fun jv z => Z.max (fst jv) z) 0 m + 1)%Z.

(** [plt.figure(num)]; [None] opens a new figure. output/plot.py 243-250. *)
Definition open_fig (num : option Z) (p : pyplot) : pyplot * Z :=
  let k := match num with Some k => k | None => next_fig (py_figs p) end in
  match fig_get k (py_figs p) with
  | Some _ => (mk_py (py_figs p) (Some k) (py_files p), k)
  | None => (mk_py (fig_set k [] (py_figs p)) (Some k) (py_files p), k)
  end.

(** Drawing a dataset into figure [k]. output/plot.py 337-526, without the details. *)
Definition draw_into (k : Z) (r : ref) (p : pyplot) : pyplot :=
  mk_py (fig_set k (match fig_get k (py_figs p) with Some l => l | None => [] end ++ [r]) (py_figs p)) (py_cur p) (py_files p).

(** [plt.savefig(name)]: the current figure, a new one if there is none.  The
    name is kept as given; matplotlib adds ".png" to a name without extension.
    commands/plot.py 269, 275, 282, 291. *)
Definition savefig (name : string) (p : pyplot) : pyplot :=
  let (p, k) := match py_cur p with Some k => (p, k) | None => open_fig None p end in
  mk_py (py_figs p) (py_cur p)
    (py_files p ++ [(name, match fig_get k (py_figs p) with Some l => l | None => [] end)]).

(** The content of a file: the last one written under its name.
    Files of commands/plot.py 269, 275, 282, 291. *)
Definition on_disk (p : pyplot) (name : string) : option (list ref) :=
  fold_left (fun acc f => if String.eqb (fst f) name then Some (snd f) else acc) (py_files p) None.

(** ** The command. The option --figure, commands/plot.py 141-143 and 160-166. *)

Inductive figopt := FigNone | FigInt (k : Z) | FigStr (s : string).

(** output/plot.py 243-256: the figure used. *)
Definition fig_num (f : figopt) : res (option Z) :=
  match f with
  | FigNone => Ok None
  | FigInt k => Ok (Some k)
  | FigStr s => let* k := py_int s in Ok (Some k)
  end.

(** [if s:] for an optional string. commands/plot.py 212, 253, 273. *)
Definition given (s : option string) : option string :=
  match s with Some "" => None | s => s end%string.

(** [label.strip()] for blanks. commands/plot.py 213. *)
Fixpoint lstrip (s : string) : string :=
  match s with String " " s' => lstrip s' | _ => s end%char.
(** commands/plot.py 213. *)
Fixpoint rstrip (s : string) : string :=
  match s with
  | EmptyString => EmptyString
  | String c s' => match rstrip s' with
                   | EmptyString => if Ascii.eqb c " " then EmptyString else String c EmptyString
                   | r => String c r
                   end
  end.
(** commands/plot.py 213. *)
Definition strip (s : string) : string := rstrip (lstrip s).

(** The options of commands/plot.py 9-103 used here. *)
Record copts := mk_copts {
  c_use : option string;
  c_figure : figopt;          (* --figure *)
  c_subplots : bool;
  c_multiblock : bool;
  c_save : bool;
  c_saveas : option string;
  c_saveframes : option string;
  c_batch : option string;    (* prefix of the global batch mode *)
  c_legend : option string;
  c_forcelegend : bool;
  c_zmin : option Q;
  c_zmax : option Q;
  c_zscale : Q;
  c_globalrange : bool;
  c_cutoff : option Q;
  c_show : bool
}.

(** What is passed to [output.plot] for one dataset (line 247), with the number
    of the figure it is drawn into. *)
Record pcall := mk_pcall {
  pc_ref : ref;
  pc_fig : Z;
  pc_label : string;
  pc_zmin : option Q;
  pc_zmax : option Q;
  pc_start : nat               (* start_axes *)
}.

Section Cmd.
  (** The values of a dataset and its number of components. *)
  Context {X : Type} (vals : X -> list Q) (ncomps : X -> nat).
  Implicit Type ds : dspace X.

  (** The datasets the iterator yields, with the number of [enum=True]. commands/plot.py 228. *)
  Definition seen ds (use : option string) : res (list (nat * ref * dset X)) :=
    let* vs := visits ds use true true SelNone in
    mapM (fun ir => match lookup ds (snd ir) with Some d => Ok (ir, d) | None => Err KeyError end) vs.

  (** Lines 134-144: with subplots the figure defaults to 0. *)
  Definition figure0 (o : copts) : figopt :=
    match c_figure o with FigNone => if c_subplots o then FigInt 0 else FigNone | f => f end.

  (** Lines 159-166. *)
  Definition per_dataset (f : figopt) : bool :=
    match f with
    | FigStr s => String.eqb s "dataset" || String.eqb s "set" || String.eqb s "s"
    | _ => false
    end.

  (** Lines 229-235: the figure of the dataset with number [i]. *)
  Definition figure_of (o : copts) (i : nat) : figopt :=
    if c_multiblock o then FigInt 0
    else if per_dataset (figure0 o) then FigInt (Z.of_nat i) else figure0 o.

  (** Lines 168-203: the limits.  Without datasets they are
      infinite, which is not used and left as [None] here. *)
  Definition limits_of (o : copts) (l : list (nat * ref * dset X)) : res (option Q * option Q) :=
    let globalrange := c_globalrange o || c_multiblock o && match c_cutoff o with None => true | Some _ => false end in
    if globalrange || match cutoff_of (c_cutoff o) with Some _ => true | None => false end then
      let* (lo, hi) := plot_range (c_zscale o) (c_cutoff o) (List.map (fun e => vals (ds_data (snd e))) l) in
      Ok (match c_zmin o with None => lo | z => z end, match c_zmax o with None => hi | z => z end)
    else Ok (c_zmin o, c_zmax o).

  (** Lines 210-214. *)
  Definition legend_labels (o : copts) : option (list string) :=
    match given (c_legend o) with
    | Some s => Some (List.map strip (split_on "," s))
    | None => None
    end.

  (** Lines 237-244; [several] is [get_num_datasets() > 1]. *)
  Definition label_of (o : copts) (several : bool) (i : nat) (d : dset X) : string :=
    match match legend_labels o with Some ls => nth_error ls i | None => None end with
    | Some l => l
    | None => if several || c_forcelegend o then ds_label d else ""%string
    end.

  (** Lines 253-266: the next file name.  [ctx.obj["labels"]] is never set, so
      a dataset without file name raises KeyError. *)
  Definition next_name (o : copts) (file_name : string) (d : dset X) : res string :=
    match given (c_saveas o) with
    | Some s => Ok s
    | None =>
        if c_save o then
          let prefix := if String.eqb file_name "" then ""%string else (file_name ++ "_")%string in
          if String.eqb (ds_file d) "" then Err KeyError
          else Ok (prefix ++ hd "" (split_on "." (ds_file d)))%string
        else Ok file_name
    end.
  Definition saving (o : copts) : bool :=
    c_save o || match given (c_saveas o) with Some _ => true | None => false end.

  (** [f"{prefix:s}_{i:d}.png"]. commands/plot.py 274 and 281. *)
  Definition frame_name (prefix : string) (i : nat) : string :=
    (prefix ++ "_" ++ show_Z (Z.of_nat i) ++ ".png")%string.

  (** Lines 227-288, the loop.  State: file name, [start_axes], pyplot. *)
  Fixpoint plot_loop (o : copts) (several : bool) (zmin zmax : option Q) (l : list (nat * ref * dset X))
      (file_name : string) (start : nat) (p : pyplot) : res (list pcall * string * pyplot) :=
    match l with
    | [] => Ok ([], file_name, p)
    | (i, r, d) :: l' =>
        let fig := figure_of o i in
        let* num := fig_num fig in
        let (p, k) := open_fig num p in
        let p := draw_into k r p in
        let call := mk_pcall r k (label_of o several i d) zmin zmax start in
        let start := if c_subplots o then (start + ncomps (ds_data d))%nat else start in
        let* file_name := next_name o file_name d in
        let none := match fig with FigNone => true | _ => false end in
        let p := if saving o && none then savefig file_name p else p in
        let file_name := if saving o && none then ""%string else file_name in
        let fp := match given (c_saveframes o) with
                  | Some s => (frame_name s i, savefig (frame_name s i) p)
                  | None => (file_name, p)
                  end in
        let fp := match c_batch o with
                  | Some s => (frame_name s i, savefig (frame_name s i) (snd fp))
                  | None => fp
                  end in
        let* rest := plot_loop o several zmin zmax l' (fst fp) start (snd fp) in
        let '(calls, file_name, p) := rest in
        Ok (call :: calls, file_name, p)
    end.

  (** Lines 115-297: the calls, the state of pyplot and whether the figures
      are shown. *)
  Definition plot_cmd (o : copts) ds (p : pyplot) : res (list pcall * pyplot * bool) :=
    let* l := seen ds (c_use o) in
    let* (zmin, zmax) := limits_of o l in
    let* n := match l with [] => Ok 0%nat | _ => get_num_datasets ds None true end in
    let* out := plot_loop o (1 <? n)%nat zmin zmax l "" 0 p in
    let '(calls, file_name, p) := out in
    let p := if saving o then savefig file_name p else p in
    let hidden := match l with [] => false | _ =>
                    match given (c_saveframes o), c_batch o with None, None => false | _, _ => true end end in
    Ok (calls, p, c_show o && negb hidden).
End Cmd.
