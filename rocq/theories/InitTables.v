(** Column tables of ell_init_2D / ell_init_3D.
    Generated by tools/gen_init.py from /repo/src/ell.cpp:707-1876; do not edit.

    [Some (a, b, c)] stands for the right-hand side
      (n + c * (nx * ny) + b * nx + a) * nFields + d2
    and [None] for the right-hand side 0, where n is the node of the block. *)
From Verif Require Import Base.

Definition entry := option (Z * Z * Z).

(** position of a block along one axis: index 0, index n-1, or the loop
    [for (i = 1; i < n - 1; i++)] *)
Inductive axcls := Lo | Mid | Hi.

(** src/ell.cpp:724  branch [i == 0] *)
Definition t2_corner_00 : list entry :=
  [ None;  None;  None;
    None;  Some (0, 0, 0);  Some (1, 0, 0);
    None;  Some (0, 1, 0);  Some (1, 1, 0) ].

(** src/ell.cpp:738  branch [i == nx - 1] *)
Definition t2_corner_x0 : list entry :=
  [ None;  None;  None;
    Some (-1, 0, 0);  Some (0, 0, 0);  None;
    Some (-1, 1, 0);  Some (0, 1, 0);  None ].

(** src/ell.cpp:752  branch [i == nx * ny - 1] *)
Definition t2_corner_xy : list entry :=
  [ Some (-1, -1, 0);  Some (0, -1, 0);  None;
    Some (-1, 0, 0);  Some (0, 0, 0);  None;
    None;  None;  None ].

(** src/ell.cpp:766  branch [i == (ny - 1) * nx] *)
Definition t2_corner_0y : list entry :=
  [ None;  Some (0, -1, 0);  Some (1, -1, 0);
    None;  Some (0, 0, 0);  Some (1, 0, 0);
    None;  None;  None ].

(** src/ell.cpp:782  branch [i < nx] *)
Definition t2_bottom : list entry :=
  [ None;  None;  None;
    Some (-1, 0, 0);  Some (0, 0, 0);  Some (1, 0, 0);
    Some (-1, 1, 0);  Some (0, 1, 0);  Some (1, 1, 0) ].

(** src/ell.cpp:798  branch [i > (ny - 1) * nx] *)
Definition t2_top : list entry :=
  [ Some (-1, -1, 0);  Some (0, -1, 0);  Some (1, -1, 0);
    Some (-1, 0, 0);  Some (0, 0, 0);  Some (1, 0, 0);
    None;  None;  None ].

(** src/ell.cpp:814  branch [(i % nx) == 0] *)
Definition t2_left : list entry :=
  [ None;  Some (0, -1, 0);  Some (1, -1, 0);
    None;  Some (0, 0, 0);  Some (1, 0, 0);
    None;  Some (0, 1, 0);  Some (1, 1, 0) ].

(** src/ell.cpp:830  branch [(i + 1) % nx == 0] *)
Definition t2_right : list entry :=
  [ Some (-1, -1, 0);  Some (0, -1, 0);  None;
    Some (-1, 0, 0);  Some (0, 0, 0);  None;
    Some (-1, 1, 0);  Some (0, 0, 0);  None ].

(** src/ell.cpp:846  branch [else] *)
Definition t2_inner : list entry :=
  [ Some (-1, -1, 0);  Some (0, -1, 0);  Some (1, -1, 0);
    Some (-1, 0, 0);  Some (0, 0, 0);  Some (1, 0, 0);
    Some (-1, 1, 0);  Some (0, 1, 0);  Some (1, 1, 0) ].

(** src/ell.cpp:878-1875, the 27 blocks in program order *)
Definition t3_blocks : list ((axcls * axcls * axcls) * list entry) := [
  (* line 879 *)
  ((Lo, Lo, Lo),
    [ None;  None;  None;  None;  None;  None;  None;  None;  None;
    None;  None;  None;  None;  Some (0, 0, 0);  Some (1, 0, 0);  None;  Some (0, 1, 0);  Some (1, 1, 0);
    None;  None;  None;  None;  Some (0, 0, 1);  Some (1, 0, 1);  None;  Some (0, 1, 1);  Some (1, 1, 1) ]);
  (* line 914 *)
  ((Hi, Lo, Lo),
    [ None;  None;  None;  None;  None;  None;  None;  None;  None;
    None;  None;  None;  Some (-1, 0, 0);  Some (0, 0, 0);  None;  Some (-1, 1, 0);  Some (0, 1, 0);  None;
    None;  None;  None;  Some (-1, 0, 1);  Some (0, 0, 1);  None;  Some (-1, 1, 1);  Some (0, 1, 1);  None ]);
  (* line 949 *)
  ((Hi, Hi, Lo),
    [ None;  None;  None;  None;  None;  None;  None;  None;  None;
    Some (-1, -1, 0);  Some (0, -1, 0);  None;  Some (-1, 0, 0);  Some (0, 0, 0);  None;  None;  None;  None;
    Some (-1, -1, 1);  Some (0, -1, 1);  None;  Some (-1, 0, 1);  Some (0, 0, 1);  None;  None;  None;  None ]);
  (* line 984 *)
  ((Lo, Hi, Lo),
    [ None;  None;  None;  None;  None;  None;  None;  None;  None;
    None;  Some (0, -1, 0);  Some (1, -1, 0);  None;  Some (0, 0, 0);  Some (1, 0, 0);  None;  None;  None;
    None;  Some (0, -1, 1);  Some (1, -1, 1);  None;  Some (0, 0, 1);  Some (1, 0, 1);  None;  None;  None ]);
  (* line 1019 *)
  ((Lo, Lo, Hi),
    [ None;  None;  None;  None;  Some (0, 0, -1);  Some (1, 0, -1);  None;  Some (0, 1, -1);  Some (1, 1, -1);
    None;  None;  None;  None;  Some (0, 0, 0);  Some (1, 0, 0);  None;  Some (0, 1, 0);  Some (1, 1, 0);
    None;  None;  None;  None;  None;  None;  None;  None;  None ]);
  (* line 1054 *)
  ((Hi, Lo, Hi),
    [ None;  None;  None;  Some (-1, 0, -1);  Some (0, 0, -1);  None;  Some (-1, 1, -1);  Some (0, 1, -1);  None;
    None;  None;  None;  Some (-1, 0, 0);  Some (0, 0, 0);  None;  Some (-1, 1, 0);  Some (0, 1, 0);  None;
    None;  None;  None;  None;  None;  None;  None;  None;  None ]);
  (* line 1089 *)
  ((Hi, Hi, Hi),
    [ Some (-1, -1, -1);  Some (0, -1, -1);  None;  Some (-1, 0, -1);  Some (0, 0, -1);  None;  None;  None;  None;
    Some (-1, -1, 0);  Some (0, -1, 0);  None;  Some (-1, 0, 0);  Some (0, 0, 0);  None;  None;  None;  None;
    None;  None;  None;  None;  None;  None;  None;  None;  None ]);
  (* line 1124 *)
  ((Lo, Hi, Hi),
    [ None;  Some (0, -1, -1);  Some (1, -1, -1);  None;  Some (0, 0, -1);  Some (1, 0, -1);  None;  None;  None;
    None;  Some (0, -1, 0);  Some (1, -1, 0);  None;  Some (0, 0, 0);  Some (1, 0, 0);  None;  None;  None;
    None;  None;  None;  None;  None;  None;  None;  None;  None ]);
  (* line 1160 *)
  ((Lo, Lo, Mid),
    [ None;  None;  None;  None;  Some (0, 0, -1);  Some (1, 0, -1);  None;  Some (0, 1, -1);  Some (1, 1, -1);
    None;  None;  None;  None;  Some (0, 0, 0);  Some (1, 0, 0);  None;  Some (0, 1, 0);  Some (1, 1, 0);
    None;  None;  None;  None;  Some (0, 0, 1);  Some (1, 0, 1);  None;  Some (0, 1, 1);  Some (1, 1, 1) ]);
  (* line 1197 *)
  ((Hi, Lo, Mid),
    [ None;  None;  None;  Some (-1, 0, -1);  Some (0, 0, -1);  None;  Some (-1, 1, -1);  Some (0, 1, -1);  None;
    None;  None;  None;  Some (-1, 0, 0);  Some (0, 0, 0);  None;  Some (-1, 1, 0);  Some (0, 1, 0);  None;
    None;  None;  None;  Some (-1, 0, 1);  Some (0, 0, 1);  None;  Some (-1, 1, 1);  Some (0, 1, 1);  None ]);
  (* line 1234 *)
  ((Hi, Hi, Mid),
    [ Some (-1, -1, -1);  Some (0, -1, -1);  None;  Some (-1, 0, -1);  Some (0, 0, -1);  None;  None;  None;  None;
    Some (-1, -1, 0);  Some (0, -1, 0);  None;  Some (-1, 0, 0);  Some (0, 0, 0);  None;  None;  None;  None;
    Some (-1, -1, 1);  Some (0, -1, 1);  None;  Some (-1, 0, 1);  Some (0, 0, 1);  None;  None;  None;  None ]);
  (* line 1271 *)
  ((Lo, Hi, Mid),
    [ None;  Some (0, -1, -1);  Some (1, -1, -1);  None;  Some (0, 0, -1);  Some (1, 0, -1);  None;  None;  None;
    None;  Some (0, -1, 0);  Some (1, -1, 0);  None;  Some (0, 0, 0);  Some (1, 0, 0);  None;  None;  None;
    None;  Some (0, -1, 1);  Some (1, -1, 1);  None;  Some (0, 0, 1);  Some (1, 0, 1);  None;  None;  None ]);
  (* line 1308 *)
  ((Mid, Lo, Lo),
    [ None;  None;  None;  None;  None;  None;  None;  None;  None;
    None;  None;  None;  Some (-1, 0, 0);  Some (0, 0, 0);  Some (1, 0, 0);  Some (-1, 1, 0);  Some (0, 1, 0);  Some (1, 1, 0);
    None;  None;  None;  Some (-1, 0, 1);  Some (0, 0, 1);  Some (1, 0, 1);  Some (-1, 1, 1);  Some (0, 1, 1);  Some (1, 1, 1) ]);
  (* line 1345 *)
  ((Mid, Hi, Lo),
    [ None;  None;  None;  None;  None;  None;  None;  None;  None;
    Some (-1, -1, 0);  Some (0, -1, 0);  Some (1, -1, 0);  Some (-1, 0, 0);  Some (0, 0, 0);  Some (1, 0, 0);  None;  None;  None;
    Some (-1, -1, 1);  Some (0, -1, 1);  Some (1, -1, 1);  Some (-1, 0, 1);  Some (0, 0, 1);  Some (1, 0, 1);  None;  None;  None ]);
  (* line 1382 *)
  ((Mid, Hi, Hi),
    [ Some (-1, -1, -1);  Some (0, -1, -1);  Some (1, -1, -1);  Some (-1, 0, -1);  Some (0, 0, -1);  Some (1, 0, -1);  None;  None;  None;
    Some (-1, -1, 0);  Some (0, -1, 0);  Some (1, -1, 0);  Some (-1, 0, 0);  Some (0, 0, 0);  Some (1, 0, 0);  None;  None;  None;
    None;  None;  None;  None;  None;  None;  None;  None;  None ]);
  (* line 1419 *)
  ((Mid, Lo, Hi),
    [ None;  None;  None;  Some (-1, 0, -1);  Some (0, 0, -1);  Some (1, 0, -1);  Some (-1, 1, -1);  Some (0, 1, -1);  Some (1, 1, -1);
    None;  None;  None;  Some (-1, 0, 0);  Some (0, 0, 0);  Some (1, 0, 0);  Some (-1, 1, 0);  Some (0, 1, 0);  Some (1, 1, 0);
    None;  None;  None;  None;  None;  None;  None;  None;  None ]);
  (* line 1456 *)
  ((Lo, Mid, Lo),
    [ None;  None;  None;  None;  None;  None;  None;  None;  None;
    None;  Some (0, -1, 0);  Some (1, -1, 0);  None;  Some (0, 0, 0);  Some (1, 0, 0);  None;  Some (0, 1, 0);  Some (1, 1, 0);
    None;  Some (0, -1, 1);  Some (1, -1, 1);  None;  Some (0, 0, 1);  Some (1, 0, 1);  None;  Some (0, 1, 1);  Some (1, 1, 1) ]);
  (* line 1493 *)
  ((Hi, Mid, Lo),
    [ None;  None;  None;  None;  None;  None;  None;  None;  None;
    Some (-1, -1, 0);  Some (0, -1, 0);  None;  Some (-1, 0, 0);  Some (0, 0, 0);  None;  Some (-1, 1, 0);  Some (0, 1, 0);  None;
    Some (-1, -1, 1);  Some (0, -1, 1);  None;  Some (-1, 0, 1);  Some (0, 0, 1);  None;  Some (-1, 1, 1);  Some (0, 1, 1);  None ]);
  (* line 1530 *)
  ((Hi, Mid, Hi),
    [ Some (-1, -1, -1);  Some (0, -1, -1);  None;  Some (-1, 0, -1);  Some (0, 0, -1);  None;  Some (-1, 1, -1);  Some (0, 1, -1);  None;
    Some (-1, -1, 0);  Some (0, -1, 0);  None;  Some (-1, 0, 0);  Some (0, 0, 0);  None;  Some (-1, 1, 0);  Some (0, 1, 0);  None;
    None;  None;  None;  None;  None;  None;  None;  None;  None ]);
  (* line 1567 *)
  ((Lo, Mid, Hi),
    [ None;  Some (0, -1, -1);  Some (1, -1, -1);  None;  Some (0, 0, -1);  Some (1, 0, -1);  None;  Some (0, 1, -1);  Some (1, 1, -1);
    None;  Some (0, -1, 0);  Some (1, -1, 0);  None;  Some (0, 0, 0);  Some (1, 0, 0);  None;  Some (0, 1, 0);  Some (1, 1, 0);
    None;  None;  None;  None;  None;  None;  None;  None;  None ]);
  (* line 1605 *)
  ((Mid, Mid, Lo),
    [ None;  None;  None;  None;  None;  None;  None;  None;  None;
    Some (-1, -1, 0);  Some (0, -1, 0);  Some (1, -1, 0);  Some (-1, 0, 0);  Some (0, 0, 0);  Some (1, 0, 0);  Some (-1, 1, 0);  Some (0, 1, 0);  Some (1, 1, 0);
    Some (-1, -1, 1);  Some (0, -1, 1);  Some (1, -1, 1);  Some (-1, 0, 1);  Some (0, 0, 1);  Some (1, 0, 1);  Some (-1, 1, 1);  Some (0, 1, 1);  Some (1, 1, 1) ]);
  (* line 1644 *)
  ((Mid, Mid, Hi),
    [ Some (-1, -1, -1);  Some (0, -1, -1);  Some (1, -1, -1);  Some (-1, 0, -1);  Some (0, 0, -1);  Some (1, 0, -1);  Some (-1, 1, -1);  Some (0, 1, -1);  Some (1, 1, -1);
    Some (-1, -1, 0);  Some (0, -1, 0);  Some (1, -1, 0);  Some (-1, 0, 0);  Some (0, 0, 0);  Some (1, 0, 0);  Some (-1, 1, 0);  Some (0, 1, 0);  Some (1, 1, 0);
    None;  None;  None;  None;  None;  None;  None;  None;  None ]);
  (* line 1683 *)
  ((Mid, Lo, Mid),
    [ None;  None;  None;  Some (-1, 0, -1);  Some (0, 0, -1);  Some (1, 0, -1);  Some (-1, 1, -1);  Some (0, 1, -1);  Some (1, 1, -1);
    None;  None;  None;  Some (-1, 0, 0);  Some (0, 0, 0);  Some (1, 0, 0);  Some (-1, 1, 0);  Some (0, 1, 0);  Some (1, 1, 0);
    None;  None;  None;  Some (-1, 0, 1);  Some (0, 0, 1);  Some (1, 0, 1);  Some (-1, 1, 1);  Some (0, 1, 1);  Some (1, 1, 1) ]);
  (* line 1722 *)
  ((Mid, Hi, Mid),
    [ Some (-1, -1, -1);  Some (0, -1, -1);  Some (1, -1, -1);  Some (-1, 0, -1);  Some (0, 0, -1);  Some (1, 0, -1);  None;  None;  None;
    Some (-1, -1, 0);  Some (0, -1, 0);  Some (1, -1, 0);  Some (-1, 0, 0);  Some (0, 0, 0);  Some (1, 0, 0);  None;  None;  None;
    Some (-1, -1, 1);  Some (0, -1, 1);  Some (1, -1, 1);  Some (-1, 0, 1);  Some (0, 0, 1);  Some (1, 0, 1);  None;  None;  None ]);
  (* line 1761 *)
  ((Lo, Mid, Mid),
    [ None;  Some (0, -1, -1);  Some (1, -1, -1);  None;  Some (0, 0, -1);  Some (1, 0, -1);  None;  Some (0, 1, -1);  Some (1, 1, -1);
    None;  Some (0, -1, 0);  Some (1, -1, 0);  None;  Some (0, 0, 0);  Some (1, 0, 0);  None;  Some (0, 1, 0);  Some (1, 1, 0);
    None;  Some (0, -1, 1);  Some (1, -1, 1);  None;  Some (0, 0, 1);  Some (1, 0, 1);  None;  Some (0, 1, 1);  Some (1, 1, 1) ]);
  (* line 1800 *)
  ((Hi, Mid, Mid),
    [ Some (-1, -1, -1);  Some (0, -1, -1);  None;  Some (-1, 0, -1);  Some (0, 0, -1);  None;  Some (-1, 1, -1);  Some (0, 1, -1);  None;
    Some (-1, -1, 0);  Some (0, -1, 0);  None;  Some (-1, 0, 0);  Some (0, 0, 0);  None;  Some (-1, 1, 0);  Some (0, 1, 0);  None;
    Some (-1, -1, 1);  Some (0, -1, 1);  None;  Some (-1, 0, 1);  Some (0, 0, 1);  None;  Some (-1, 1, 1);  Some (0, 1, 1);  None ]);
  (* line 1840 *)
  ((Mid, Mid, Mid),
    [ Some (-1, -1, -1);  Some (0, -1, -1);  Some (1, -1, -1);  Some (-1, 0, -1);  Some (0, 0, -1);  Some (1, 0, -1);  Some (-1, 1, -1);  Some (0, 1, -1);  Some (1, 1, -1);
    Some (-1, -1, 0);  Some (0, -1, 0);  Some (1, -1, 0);  Some (-1, 0, 0);  Some (0, 0, 0);  Some (1, 0, 0);  Some (-1, 1, 0);  Some (0, 1, 0);  Some (1, 1, 0);
    Some (-1, -1, 1);  Some (0, -1, 1);  Some (1, -1, 1);  Some (-1, 0, 1);  Some (0, 0, 1);  Some (1, 0, 1);  Some (-1, 1, 1);  Some (0, 1, 1);  Some (1, 1, 1) ]) ].
