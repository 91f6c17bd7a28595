(** Specification vocabulary for the matrix: written from the meaning (grid
    neighbours, rows, couplings), not from the code. *)
From Verif Require Import Base.

(** node number of grid point (i,j,k), x fastest *)
Definition node (nx ny i j k : Z) : Z := i + nx * (j + ny * k).

Definition in_grid (n i : Z) : Prop := 0 <= i < n.

(** the s-th point of a 3^d stencil, x fastest; offsets in {-1,0,1} *)
Definition off_x (s : Z) : Z := s mod 3 - 1.
Definition off_y (s : Z) : Z := (s / 3) mod 3 - 1.
Definition off_z (s : Z) : Z := s / 9 - 1.

Definition insideb (n i : Z) : bool := (0 <=? i) && (i <? n).

(** node number of the s-th stencil neighbour, if it is a grid point *)
Definition nbr2 (nx ny i j s : Z) : option Z :=
  let i' := i + off_x s in let j' := j + off_y s in
  if insideb nx i' && insideb ny j' then Some (node nx ny i' j' 0) else None.

Definition nbr3 (nx ny nz i j k s : Z) : option Z :=
  let i' := i + off_x s in let j' := j + off_y s in let k' := k + off_z s in
  if insideb nx i' && insideb ny j' && insideb nz k'
  then Some (node nx ny i' j' k') else None.

(** column of a coupling to field [d2] of a neighbour; padding is column 0 *)
Definition col_of (nF d2 : Z) (o : option Z) : Z :=
  match o with Some n => n * nF + d2 | None => 0 end.

(** position of the coupling (row of node n field d1, slot s field d2) in a
    row-major array with S slots of nF fields per row *)
Definition cell (S nF n d1 s d2 : Z) : Z := (n * nF + d1) * (S * nF) + (s * nF + d2).

(** boundary of the grid *)
Definition on_bnd (n i : Z) : Prop := i = 0 \/ i = n - 1.
Definition bnd2 (nx ny i j : Z) : Prop := on_bnd nx i \/ on_bnd ny j.
Definition bnd3 (nx ny nz i j k : Z) : Prop := on_bnd nx i \/ on_bnd ny j \/ on_bnd nz k.

(** corner a of a cell: the usual counter-clockwise numbering, bottom then top *)
Definition cor_x (a : Z) : Z := if (a mod 4 =? 1) || (a mod 4 =? 2) then 1 else 0.
Definition cor_y (a : Z) : Z := if (a mod 4 =? 2) || (a mod 4 =? 3) then 1 else 0.
Definition cor_z (a : Z) : Z := a / 4.
Definition corner2 (nx ny ex ey a : Z) : Z := node nx ny (ex + cor_x a) (ey + cor_y a) 0.
Definition corner3 (nx ny ex ey ez a : Z) : Z :=
  node nx ny (ex + cor_x a) (ey + cor_y a) (ez + cor_z a).
