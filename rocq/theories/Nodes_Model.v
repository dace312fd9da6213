(** * Model of commands/gk_nodes.py

    Coordinates are real numbers. [read f] is [GData(f)]: the values of the file and
    its metadata entry "geometry_type", if there is one. What Matplotlib draws is the
    list of artists; fonts, labels and the title are not modelled. *)
From Coq Require Import String Ascii List ZArith Bool Reals.
From Verif Require Import Prelude NdArray Tools_Arr Ev_Model Gk_Model Distf_Model.
Import ListNotations.
Open Scope string_scope.
Open Scope list_scope.
Open Scope nat_scope.

(** What commands/gk_nodes.py 178-181 and 218-221 read from a file. *)
Record node_file := mk_nf { nf_values : nda R; nf_geometry : option Z }.

(** Lines 34-47 and 51, 58-59: the positions kept on each axis by the slices of one
    coordinate, in the array with the shape [sh]. *)
Definition kept (sh : list nat) (cd : nat) : list (list nat) :=
  let cdim := length sh - 1 in
  map2 (fun d n => if d =? cdim then firstn 1 (skipn cd (seq 0 n))
                   else if (cdim =? 3) && (d =? 1) then firstn 1 (seq 0 n) else seq 0 n)
       (seq 0 (length sh)) sh.

Definition coordinate (nodes : nda R) (cd : nat) : nda R := squeeze (take (kept (shape nodes) cd) nodes).

(** Lines 29-62, [nodes_to_RZ]; the toroidal angle is not used. *)
Definition nodes_to_RZ (nodes : nda R) (is_mapc2p : bool) : res (nda R * nda R) :=
  if is_mapc2p then
    let* r := rb (fun x y => sqrt (x * x + y * y)) (coordinate nodes 0) (coordinate nodes 1) in
    Ok (r, coordinate nodes 2)
  else Ok (coordinate nodes 0, coordinate nodes 1).

(** [np.amin], [np.amax]; also [.min()] and [.max()]. commands/gk_nodes.py 183-184. *)
Definition amin (l : list R) : res R := match l with [] => Err ValueError | x :: l' => Ok (fold_left Rmin l' x) end.
Definition amax (l : list R) : res R := match l with [] => Err ValueError | x :: l' => Ok (fold_left Rmax l' x) end.

(** Lines 64-72. *)
Definition append_suffix (several : bool) (s : string) (b : Z) : string :=
  if several then (s ++ "_b" ++ show_Z b)%string else s.

(** The arguments of the command that matter here; texts that may be left out are
    [None], and an empty text counts as left out. commands/gk_nodes.py 74-112. *)
Record nodes_options := mk_no {
  no_name : string; no_path : string; no_multib : string; no_nodes : option string; no_psi : option string; no_wall : option string;
  no_contour : bool; no_clevels : option string; no_cnlevels : Z; no_xlim : option string; no_ylim : option string;
  no_indent : R; no_add : R; no_unicolor : bool }.

(** A dataset put on the stack: [GData(tag=..., ctx=...)] after [push(grid, values)].
    commands/gk_nodes.py 238-246, 314-320. *)
Record nodes_data := mk_nd {
  nd_tag : string; nd_grid : list (nda R); nd_values : nda R;
  nd_cells : list nat; nd_comps : nat; nd_lower : list R; nd_upper : list R }.

(** The levels of contours, commands/gk_nodes.py 271-282. *)
Inductive levels := Number (n : Z) | Texts (l : list string).

(** commands/gk_nodes.py 224, 230, 234-235, 288, 299. *)
Inductive artist :=
| Dots (r z : nda R)
| Line (r z : nda R) (colour : string)
| Lines (segments : nda R) (colour : string)
| Contour (x y : list R) (v : nda R) (l : levels)
| Mesh (x y : list R) (v : nda R)
| Colorbar
| Wall (points : list (R * R)).

(** Left, bottom, width and height as parts of the figure. commands/gk_nodes.py 193-195. *)
Record box := mk_box { b_left : R; b_bottom : R; b_width : R; b_height : R }.

Record figure := mk_fig {
  fg_width : R; fg_height : R; fg_axes : box; fg_cax : box; fg_artists : list artist; fg_data : list nodes_data;
  fg_xlim : option (R * R); fg_ylim : option (R * R) }.

(** The first axis of an array as a list.
    How LineCollection reads its argument, commands/gk_nodes.py 234-235. *)
Definition rows (a : nda R) : list (nda R) :=
  match shape a with
  | [] => []
  | n :: sh => List.map (fun i => mk_nda sh (firstn (prod sh) (skipn (i * prod sh) (flat a)))) (seq 0 n)
  end.

(** data/gdata.py 280-292: [push]; the bounds are those of the first entries of the
    grid, as many as the values have axes before the last. *)
Definition push (tag : string) (grid : list (nda R)) (values : nda R) : res nodes_data :=
  match rev (shape values) with
  | [] => Err IndexError
  | nc :: lead =>
      let cells := rev lead in
      let* lo := mapM (fun d => match nth_error grid d with Some g => amin (flat g) | None => Err IndexError end) (seq 0 (length cells)) in
      let* up := mapM (fun d => match nth_error grid d with Some g => amax (flat g) | None => Err IndexError end) (seq 0 (length cells)) in
      Ok (mk_nd tag grid values cells nc lo up)
  end.

(** [np.stack((r, z), axis=2)] *)
Definition stack2 (r z : nda R) : res (nda R) :=
  match shape r with
  | [n1; n2] => Ok (tabulate [n1; n2; 2] (fun idx =>
      match idx with [i; j; c] => match get (if c =? 0 then r else z) [i; j] with Some x => x | None => 0%R end | _ => 0%R end))
  | _ => Err ValueError
  end.

(** [a.transpose(1, 0, 2)] *)
Definition transpose102 (a : nda R) : res (nda R) :=
  match shape a with
  | [n1; n2; n3] => Ok (tabulate [n2; n1; n3] (fun idx =>
      match idx with [j; i; c] => match get a [i; j; c] with Some x => x | None => 0%R end | _ => 0%R end))
  | _ => Err ValueError
  end.

(** [0.5*(g[:-1] + g[1:])] *)
Definition mids (g : list R) : list R := map2 (fun a b => 0.5 * (a + b))%R (removelast g) (tl g).

Definition given (o : option string) : option string := match o with Some "" => None | _ => o end.

Section Command.
  (** Reading the node files, the interpolated poloidal flux (gk_utils.py 58-73, order 2)
      and the wall; [float] of a text; the number of files matching a pattern; the
      colours of the property cycle, of which there is at least one. *)
  Context (read : string -> res node_file) (read_psi : string -> res (list (list R) * nda R))
    (read_wall : string -> res (list (R * R))) (py_float : string -> res R) (glob : string -> nat) (colours : list string).

  (** gk_utils.py 34-46 and lines 175-179: the nodes of one block. *)
  Definition load_nodes (file : string) (b : Z) : res (nat * nda R * nda R) :=
    let* f := read (replace "*" (show_Z b) file) in
    let nodes := squeeze (nf_values f) in
    let* g := is_geo_mapc2p (nf_geometry f) in
    let* (r, z) := nodes_to_RZ nodes g in
    Ok (length (shape nodes) - 1, r, z).

  (** Lines 168-183. *)
  Definition one_extent (file : string) (e : R * R * R * R) (b : Z) : res (R * R * R * R) :=
    let '(r0, r1, z0, z1) := e in
    let* (_, r, z) := load_nodes file b in
    let* rl := amin (flat r) in let* ru := amax (flat r) in
    let* zl := amin (flat z) in let* zu := amax (flat z) in
    Ok (Rmin r0 rl, Rmax r1 ru, Rmin z0 zl, Rmax z1 zu).

  Fixpoint extents (file : string) (bs : list Z) (e : R * R * R * R) : res (R * R * R * R) :=
    match bs with [] => Ok e | b :: bs' => let* e' := one_extent file e b in extents file bs' e' end.

  (** commands/gk_nodes.py 172-173. *)
  Definition no_extent : R * R * R * R := (1000000000, -1000000000, 1000000000, -1000000000)%R.

  (** Lines 187-195: the axes, the axes of the colour bar and the size of the figure. *)
  Definition layout (o : nodes_options) (e : R * R * R * R) : R * R * box * box :=
    let '(r0, r1, z0, z1) := e in
    let a := ((r1 - r0) / (z1 - z0))%R in
    let w := (8.36 * a / (8.36 * a + 2.5))%R in
    let ax := mk_box (0.82 - w + no_indent o) 0.08 (w + no_add o) 0.88 in
    let cax := mk_box (b_left ax + b_width ax + 0.01) (b_bottom ax) 0.02 (b_height ax) in
    (8.36 * a + 2.5, 8.36 + 1.14, ax, cax)%R.

  (** Lines 205-208 and 228: the colour of the block drawn as number [k]. *)
  Definition colour (o : nodes_options) (k : nat) : string :=
    if no_unicolor o then nth 0 colours "" else nth (k mod length colours) colours "".

  (** Lines 213-247: one block; [Axes.plot] refuses arrays with more than two axes. *)
  Definition draw_block (o : nodes_options) (file : string) (several : bool) (k : nat) (b : Z) : res (list artist * list nodes_data) :=
    let* (cdim, r, z) := load_nodes file b in
    if 2 <? length (shape r) then Err ValueError
    else
      let c := colour o k in
      if cdim =? 1 then
        let* d := push (append_suffix several "nodes" b) (rows r) z in
        Ok ([Dots r z; Line r z c], [d])
      else
        let* sx := stack2 r z in
        let* sy := transpose102 sx in
        let* e := push (append_suffix several "edges" b) (rows sx) sy in
        let* d := push (append_suffix several "nodes" b) (rows r) z in
        Ok ([Dots r z; Lines sx c; Lines sy c], [e; d]).

  Fixpoint draw_blocks (o : nodes_options) (file : string) (several : bool) (k : nat) (bs : list Z) : res (list artist * list nodes_data) :=
    match bs with
    | [] => Ok ([], [])
    | b :: bs' =>
        let* (a, d) := draw_block o file several k b in
        let* (a', d') := draw_blocks o file several (S k) bs' in
        Ok (a ++ a', d ++ d')
    end.

  (** Lines 269-283: the name [clevels] is not defined; numbers stay texts. *)
  Definition psi_levels (o : nodes_options) : res levels :=
    match given (no_clevels o) with
    | None => Ok (Number (no_cnlevels o))
    | Some s => if has_char ":" s then Err NameError else Ok (Texts (List.filter (fun t => negb (String.eqb t "")) (split_on "," s)))
    end.

  Definition single (l : levels) : bool := match l with Texts [_] => true | _ => false end.

  (** Lines 143-151, 252-258 and 323-329: absolute names stay, others are in the path. *)
  Definition in_path (o : nodes_options) (f : string) : string :=
    if starts_with "/" f then f else (no_path o ++ "/" ++ f)%string.

  Definition two {A} (l : list A) : res (A * A) := match l with a :: b :: _ => Ok (a, b) | _ => Err IndexError end.

  (** Lines 251-321; that Matplotlib accepts grid, values and levels is not modelled. *)
  Definition draw_psi (o : nodes_options) (f : string) : res (list artist * list nodes_data) :=
    let* (g, v) := read_psi (in_path o f) in
    let cc := List.map mids g in
    let vt := transpose 0%R v in
    let arr (l : list R) := mk_nda [length l] l in
    if no_contour o then
      let* l := psi_levels o in
      let* (x, y) := two cc in
      let* d := push "psi" (List.map arr cc) vt in
      Ok (Contour x y vt l :: (if single l then [] else [Colorbar]), [d])
    else
      let* (x, y) := two g in
      let* d := push "psi" (List.map arr g) vt in
      Ok ([Mesh x y vt; Colorbar], [d]).

  (** Lines 340-351. *)
  Definition limits (l : option string) : res (option (R * R)) :=
    match given l with
    | None => Ok None
    | Some s =>
        match split_on "," s with
        | a :: b :: _ => let* x := py_float a in let* y := py_float b in Ok (Some (x, y))
        | a :: _ => let* _ := py_float a in Err IndexError
        | [] => Err IndexError
        end
    end.

  (** Lines 135-153. *)
  Definition nodes_name (o : nodes_options) : string :=
    match given (no_nodes o) with
    | Some f => in_path o f
    | None => (no_path o ++ "/" ++ no_name o ++ (if String.eqb (no_multib o) "-10" then "-" else "_b*-") ++ "nodes.gkyl")%string
    end.

  (** Lines 114-363, [gk_nodes]. *)
  Definition gk_nodes (o : nodes_options) : res figure :=
    let file := nodes_name o in
    let* bs := get_block_indices glob (no_multib o) file in
    let several := 1 <? length bs in
    let* e := extents file bs no_extent in
    let '(w, h, ax, cax) := layout o e in
    let* (a, d) := draw_blocks o file several 0 bs in
    let* (pa, pd) := match given (no_psi o) with Some f => draw_psi o f | None => Ok ([], []) end in
    let* wa := match given (no_wall o) with Some f => let* l := read_wall (in_path o f) in Ok [Wall l] | None => Ok [] end in
    let* xl := limits (no_xlim o) in
    let* yl := limits (no_ylim o) in
    Ok (mk_fig w h ax cax (a ++ pa ++ wa) (d ++ pd) xl yl).
End Command.
