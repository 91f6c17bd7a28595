(** Model of src/assembly.cpp: prescribed displacements, strains, stresses,
    the plastic step, element arrays, residual, matrix and averages. *)
From Verif Require Import Base Scalar EllSpec Grid EllModel.

(** ** Data *)
(** material_t, include/micro.hpp:54-64.  The two booleans are [None] when the
    constructor left them uninitialised. *)
Record material (T : Type) := mkMat {
  m_E : T; m_nu : T; m_k : T; m_mu : T; m_lambda : T; m_Ka : T; m_Sy : T;
  m_plast : option bool; m_damage : option bool }.
Arguments mkMat {T}.
Arguments m_E {T}. Arguments m_nu {T}. Arguments m_k {T}. Arguments m_mu {T}.
Arguments m_lambda {T}. Arguments m_Ka {T}. Arguments m_Sy {T}.
Arguments m_plast {T}. Arguments m_damage {T}.

(** The const members of micropp_t (include/micro.hpp:69-73), the material list (79)
    and the element types (91): nothing changes them after construction. *)
Record env (T : Type) := mkEnv {
  v_dim : Z; v_nx : Z; v_ny : Z; v_nz : Z;
  v_lx : T; v_ly : T; v_lz : T; v_dx : T; v_dy : T; v_dz : T;
  v_width : T; v_inv_tol : T; v_type : Z;
  v_mats : list (material T); v_etype : arr Z }.
Arguments mkEnv {T}.
Arguments v_dim {T}. Arguments v_nx {T}. Arguments v_ny {T}. Arguments v_nz {T}.
Arguments v_lx {T}. Arguments v_ly {T}. Arguments v_lz {T}.
Arguments v_dx {T}. Arguments v_dy {T}. Arguments v_dz {T}.
Arguments v_width {T}. Arguments v_inv_tol {T}. Arguments v_type {T}.
Arguments v_mats {T}. Arguments v_etype {T}.

Section Model.
Context {T : Type} `{OT : Ops T}.
Local Open Scope num_scope.

(** ** Fixed local arrays *)
(** [double a[n]] filled by a loop with fixed bounds; the sizes are the literals of the code
    (e.g. src/assembly.cpp:403, 656, 703) *)
Definition ltab (n : Z) (f : Z -> T) : list T := map f (zrange 0 n).
(** a[i] of such an array, e.g. src/assembly.cpp:694; every index the model uses is within
    its bounds *)
Definition lget (l : list T) (i : Z) : T := nth (Z.to_nat i) l (ofZ 0).

(** x; for (a : l) x += f(a);  e.g. src/assembly.cpp:693-695 and 439-440 *)
Definition accf {A} (x : T) (l : list A) (f : A -> T) : T :=
  fold_left (fun acc a => acc + f a) l x.

(** ** Shape functions *)
(** the Gauss coordinate 0.577350269189626 of src/assembly.cpp:397-400, 594-601,
    658-661, 1095-1098 *)
Definition gpt : T := dec 577350269189626 15.

(** xg[gp][c], src/assembly.cpp:396-401 (2D) and 593-602 (3D); the first four
    rows of the 3D table are those of the 2D table *)
Definition xg (gp c : Z) : T :=
  match c with
  | 0%Z => if ((gp =? 1) || (gp =? 2) || (gp =? 5) || (gp =? 6))%Z then gpt else - gpt
  | 1%Z => if ((gp =? 2) || (gp =? 3) || (gp =? 6) || (gp =? 7))%Z then gpt else - gpt
  | _ => if (gp <? 4)%Z then - gpt else gpt
  end.

(** dsh[n][c] at the local point (x0, x1), src/assembly.cpp:410-417 (= 669-676, 1103-1110) *)
Definition dsh2 (x0 x1 dx dy : T) (n c : Z) : T :=
  match n, c with
  | 0%Z, 0%Z => - (ofZ 1 - x1) / ofZ 4 * ofZ 2 / dx
  | 0%Z, _   => - (ofZ 1 - x0) / ofZ 4 * ofZ 2 / dy
  | 1%Z, 0%Z => (ofZ 1 - x1) / ofZ 4 * ofZ 2 / dx
  | 1%Z, _   => - (ofZ 1 + x0) / ofZ 4 * ofZ 2 / dy
  | 2%Z, 0%Z => (ofZ 1 + x1) / ofZ 4 * ofZ 2 / dx
  | 2%Z, _   => (ofZ 1 + x0) / ofZ 4 * ofZ 2 / dy
  | _, 0%Z   => - (ofZ 1 + x1) / ofZ 4 * ofZ 2 / dx
  | _, _     => (ofZ 1 - x0) / ofZ 4 * ofZ 2 / dy
  end.

(** bmat[v][i], src/assembly.cpp:419-426 (= 678-685, 1112-1119) *)
Definition bmat2 (x0 x1 dx dy : T) (v i : Z) : T :=
  let n := (i / 2)%Z in
  match v, (i mod 2)%Z with
  | 0%Z, 0%Z => dsh2 x0 x1 dx dy n 0
  | 0%Z, _ => ofZ 0
  | 1%Z, 0%Z => ofZ 0
  | 1%Z, _ => dsh2 x0 x1 dx dy n 1
  | _, 0%Z => dsh2 x0 x1 dx dy n 1
  | _, _ => dsh2 x0 x1 dx dy n 0
  end.

(** dsh[n][c] at (x0, x1, x2), src/assembly.cpp:606-629 *)
Definition dsh3 (x0 x1 x2 dx dy dz : T) (n c : Z) : T :=
  match n, c with
  | 0%Z, 0%Z => - (ofZ 1 - x1) * (ofZ 1 - x2) / ofZ 8 * ofZ 2 / dx
  | 0%Z, 1%Z => - (ofZ 1 - x0) * (ofZ 1 - x2) / ofZ 8 * ofZ 2 / dy
  | 0%Z, _   => - (ofZ 1 - x0) * (ofZ 1 - x1) / ofZ 8 * ofZ 2 / dz
  | 1%Z, 0%Z => (ofZ 1 - x1) * (ofZ 1 - x2) / ofZ 8 * ofZ 2 / dx
  | 1%Z, 1%Z => - (ofZ 1 + x0) * (ofZ 1 - x2) / ofZ 8 * ofZ 2 / dy
  | 1%Z, _   => - (ofZ 1 + x0) * (ofZ 1 - x1) / ofZ 8 * ofZ 2 / dz
  | 2%Z, 0%Z => (ofZ 1 + x1) * (ofZ 1 - x2) / ofZ 8 * ofZ 2 / dx
  | 2%Z, 1%Z => (ofZ 1 + x0) * (ofZ 1 - x2) / ofZ 8 * ofZ 2 / dy
  | 2%Z, _   => - (ofZ 1 + x0) * (ofZ 1 + x1) / ofZ 8 * ofZ 2 / dz
  | 3%Z, 0%Z => - (ofZ 1 + x1) * (ofZ 1 - x2) / ofZ 8 * ofZ 2 / dx
  | 3%Z, 1%Z => (ofZ 1 - x0) * (ofZ 1 - x2) / ofZ 8 * ofZ 2 / dy
  | 3%Z, _   => - (ofZ 1 - x0) * (ofZ 1 + x1) / ofZ 8 * ofZ 2 / dz
  | 4%Z, 0%Z => - (ofZ 1 - x1) * (ofZ 1 + x2) / ofZ 8 * ofZ 2 / dx
  | 4%Z, 1%Z => - (ofZ 1 - x0) * (ofZ 1 + x2) / ofZ 8 * ofZ 2 / dy
  | 4%Z, _   => (ofZ 1 - x0) * (ofZ 1 - x1) / ofZ 8 * ofZ 2 / dz
  | 5%Z, 0%Z => (ofZ 1 - x1) * (ofZ 1 + x2) / ofZ 8 * ofZ 2 / dx
  | 5%Z, 1%Z => - (ofZ 1 + x0) * (ofZ 1 + x2) / ofZ 8 * ofZ 2 / dy
  | 5%Z, _   => (ofZ 1 + x0) * (ofZ 1 - x1) / ofZ 8 * ofZ 2 / dz
  | 6%Z, 0%Z => (ofZ 1 + x1) * (ofZ 1 + x2) / ofZ 8 * ofZ 2 / dx
  | 6%Z, 1%Z => (ofZ 1 + x0) * (ofZ 1 + x2) / ofZ 8 * ofZ 2 / dy
  | 6%Z, _   => (ofZ 1 + x0) * (ofZ 1 + x1) / ofZ 8 * ofZ 2 / dz
  | _, 0%Z   => - (ofZ 1 + x1) * (ofZ 1 + x2) / ofZ 8 * ofZ 2 / dx
  | _, 1%Z   => (ofZ 1 - x0) * (ofZ 1 + x2) / ofZ 8 * ofZ 2 / dy
  | _, _     => (ofZ 1 - x0) * (ofZ 1 + x1) / ofZ 8 * ofZ 2 / dz
  end.

(** bmat[v][i], src/assembly.cpp:631-650 *)
Definition bmat3 (x0 x1 x2 dx dy dz : T) (v i : Z) : T :=
  let n := (i / 3)%Z in
  let D c := dsh3 x0 x1 x2 dx dy dz n c in
  match v, (i mod 3)%Z with
  | 0%Z, 0%Z => D 0%Z | 0%Z, _ => ofZ 0
  | 1%Z, 1%Z => D 1%Z | 1%Z, _ => ofZ 0
  | 2%Z, 0%Z => ofZ 0 | 2%Z, 1%Z => ofZ 0 | 2%Z, _ => D 2%Z
  | 3%Z, 0%Z => D 1%Z | 3%Z, 1%Z => D 0%Z | 3%Z, _ => ofZ 0
  | 4%Z, 0%Z => D 2%Z | 4%Z, 1%Z => ofZ 0 | 4%Z, _ => D 0%Z
  | _, 0%Z => ofZ 0 | _, 1%Z => D 2%Z | _, _ => D 1%Z
  end.

(** ** Loop bodies shared by the 2D and 3D versions; [ndof] is npe*dim *)
(** strain_gp[v] = 0; for i: strain_gp[v] += bmat[v][i]*elem_disp[i],
    src/assembly.cpp:1120-1125 and 1138-1142 *)
Definition strain_of (nvoi ndof : Z) (B : Z -> Z -> T) (ed : list T) : list T :=
  ltab nvoi (fun v => sumf (zrange 0 ndof) (fun i => B v i * lget ed i)).

(** for i, j: be[i] += bmat[j][i]*stress_gp[j]*wg, src/assembly.cpp:692-696 and 717-719 *)
Definition add_rhs (nvoi ndof : Z) (B : Z -> Z -> T) (s : list T) (wg : T) (be : list T) : list T :=
  ltab ndof (fun i => accf (lget be i) (zrange 0 nvoi) (fun j => B j i * lget s j * wg)).

(** cxb[i][j], src/assembly.cpp:428-434 and 494-500 *)
Definition cxb (nvoi : Z) (ctan B : Z -> Z -> T) (i j : Z) : T :=
  sumf (zrange 0 nvoi) (fun k => ctan i k * B k j).

(** for i, j, m: Ae[i*npe*dim+j] += bmat[m][i]*cxb[m][j]*wg,
    src/assembly.cpp:437-440 and 503-506 *)
Definition add_mat (nvoi ndof : Z) (B ctan : Z -> Z -> T) (wg : T) (Ae : list T) : list T :=
  ltab (ndof * ndof) (fun q =>
    let i := (q / ndof)%Z in let j := (q mod ndof)%Z in
    accf (lget Ae q) (zrange 0 nvoi) (fun m => B m i * cxb nvoi ctan B m j * wg)).

(** aux[v] += s[v]*wg, src/assembly.cpp:748-749, 775-776, 808-809, 831-832 *)
Definition add_ave (nvoi : Z) (s : list T) (wg : T) (aux : list T) : list T :=
  ltab nvoi (fun v => lget aux v + lget s v * wg).
(** ave[v] += aux[v], src/assembly.cpp:752-753, 779-780, 812-813, 835-836 *)
Definition add_vec (nvoi : Z) (aux ave : list T) : list T :=
  ltab nvoi (fun v => lget ave v + lget aux v).
(** the loops setting a local array to 0.0, e.g. src/assembly.cpp:405-406, 664-665, 737-738 *)
Definition zeros (n : Z) : list T := ltab n (fun _ => ofZ 0).

(** ** Elasticity *)
(** ctan, src/assembly.cpp:382-394 and 941-952 *)
Definition ctan2 (E nu : T) (i j : Z) : T :=
  match i, j with
  | 0%Z, 0%Z => ofZ 1 - nu
  | 0%Z, 1%Z => nu
  | 1%Z, 0%Z => nu
  | 1%Z, 1%Z => ofZ 1 - nu
  | 2%Z, 2%Z => (ofZ 1 - ofZ 2 * nu) / ofZ 2
  | _, _ => ofZ 0
  end * (E / ((ofZ 1 + nu) * (ofZ 1 - ofZ 2 * nu))).

(** ctan, src/assembly.cpp:475-488 *)
Definition ctan3 (lambda mu : T) (i j : Z) : T :=
  let c := if (i <? 3)%Z && (j <? 3)%Z then ofZ 0 + lambda else ofZ 0 in
  if (i =? j)%Z then (if (i <? 3)%Z then c + ofZ 2 * mu else c + mu) else c.

(** src/assembly.cpp:997-1002 (linear branch of get_stress3D) *)
Definition lin_stress3 (lambda mu : T) (eps : list T) : list T :=
  ltab 6 (fun i =>
    if (i <? 3)%Z then
      lambda * (lget eps 0 + lget eps 1 + lget eps 2) + ofZ 2 * mu * lget eps i
    else mu * lget eps i).

(** src/assembly.cpp:954-959 *)
Definition stress2 (E nu : T) (eps : list T) : list T :=
  ltab 3 (fun i => sumf (zrange 0 3) (fun j => ctan2 E nu i j * lget eps j)).

(** ** Plasticity *)
(** get_dev_tensor, src/assembly.cpp:963-970 *)
Definition dev (t : list T) : list T :=
  ltab 6 (fun i => if (i <? 3)%Z
    then lget t i - ofZ 1 / ofZ 3 * (lget t 0 + lget t 1 + lget t 2) else lget t i).

(** what plastic_step writes through its pointers: eps_p_new, *alpha_new, *non_linear and
    stress, src/assembly.cpp:1007-1010 *)
Record pstep := mkPstep { ps_eps_p : list T; ps_alpha : T; ps_nl : bool; ps_stress : list T }.

(** plastic_step, src/assembly.cpp:1007-1062 *)
Definition plastic_step (m : material T) (eps ep : list T) (alpha : T) : pstep :=
  let epd := dev ep in
  let ed := dev eps in
  let s := ltab 6 (fun i => if (i <? 3)%Z
             then ofZ 2 * m_mu m * (lget ed i - lget epd i)
             else m_mu m * (lget ed i - lget epd i)) in
  let q i := lget s i in
  let nrm := osqrt (q 0%Z * q 0%Z + q 1%Z * q 1%Z + q 2%Z * q 2%Z + ofZ 2 * q 3%Z * q 3%Z
                    + ofZ 2 * q 4%Z * q 4%Z + ofZ 2 * q 5%Z * q 5%Z) in
  let f := nrm - osqrt (ofZ 2 / ofZ 3) * (m_Sy m + m_Ka m * alpha) in
  let nl := ofZ 0 <? f in
  let normal := if nl then ltab 6 (fun i => q i / nrm) else zeros 6 in
  let dl := if nl
    then f / (ofZ 2 * m_mu m * (ofZ 1 + (ofZ 0 * m_Ka m) / (ofZ 3 * m_mu m))) else ofZ 0 in
  let ep' := if nl then ltab 6 (fun i => lget ep i + dl * lget normal i) else ltab 6 (lget ep) in
  let alpha' := if nl then alpha + osqrt (ofZ 2 / ofZ 3) * dl else alpha in
  let sig := ltab 6 (fun i =>
    (if (i <? 3)%Z then q i + m_k m * (lget eps 0 + lget eps 1 + lget eps 2) else q i)
    - ofZ 2 * m_mu m * dl * lget normal i) in
  mkPstep ep' alpha' nl sig.

(** ** Members reading the object *)
Section Obj.
Variable V : env T.
Notation nx := (v_nx V). Notation ny := (v_ny V). Notation nz := (v_nz V).
Notation ni := (nod_index nx ny).
Notation dx := (v_dx V). Notation dy := (v_dy V). Notation dz := (v_dz V).

(** get_material, src/assembly.cpp:1064-1087: with another micro_type the local
    mat_num is read uninitialised; copying an uninitialised bool is also UB *)
Definition get_material (e : Z) : res (material T * bool) :=
  num <- (if (v_type V =? 0) || (v_type V =? 1)
          then t <- rd (v_etype V) e ;; Ok (if t =? 0 then 0 else 1)
          else Err Uninit)%Z ;;
  m <- of_option Uninit (nth_error (v_mats V) (Z.to_nat num)) ;;
  p <- of_option Uninit (m_plast m) ;;
  Ok (m, p).

(** getElemDisp, src/assembly.cpp:1146-1159: n0..n3 are those of [sn2] *)
Definition elem_disp2 (u : arr T) (ex ey : Z) : res (list T) :=
  mapM (fun i => rd u (znth (sn2 nx ex ey) (i / 2) * 2 + i mod 2)%Z) (zrange 0 8).
(** getElemDisp, src/assembly.cpp:1161-1182: n0..n7 are those of [sn3] *)
Definition elem_disp3 (u : arr T) (ex ey ez : Z) : res (list T) :=
  mapM (fun i => rd u (znth (sn3 nx ny ex ey ez) (i / 3) * 3 + i mod 3)%Z) (zrange 0 24).

(** bmat of Gauss point gp: src/assembly.cpp:410-426 and 606-650 with xg[gp] *)
Definition B2 (gp : Z) : Z -> Z -> T := bmat2 (xg gp 0) (xg gp 1) dx dy.
(** the same in 3D: calc_bmat_3D, src/assembly.cpp:590-652 *)
Definition B3 (gp : Z) : Z -> Z -> T := bmat3 (xg gp 0) (xg gp 1) (xg gp 2) dx dy dz.

(** get_strain2D, src/assembly.cpp:1089-1127 *)
Definition get_strain2D (u : arr T) (ex ey gp : Z) : res (list T) :=
  ed <- elem_disp2 u ex ey ;; Ok (strain_of 3 8 (B2 gp) ed).
(** get_strain3D, src/assembly.cpp:1129-1144 *)
Definition get_strain3D (u : arr T) (ex ey ez gp : Z) : res (list T) :=
  ed <- elem_disp3 u ex ey ez ;; Ok (strain_of 6 24 (B3 gp) ed).

(** get_stress2D, src/assembly.cpp:924-961: the flag is cleared and never set *)
Definition get_stress2D (ex ey gp : Z) (eps : list T) : res (bool * list T) :=
  ' mp <- get_material (glo_elem3D nx ny ex ey 0) ;;
  Ok (false, stress2 (m_E (fst mp)) (m_nu (fst mp)) eps).

(** get_stress3D, src/assembly.cpp:972-1005: returns *non_linear, stress_gp and
    the trial internal variables *)
Definition get_stress3D (vold vnew : arr T) (ex ey ez gp : Z) (eps : list T)
  : res (bool * list T * arr T) :=
  let e := glo_elem3D nx ny ex ey ez in
  ' mp <- get_material e ;;
  let m := fst mp in
  if snd mp : bool then
    ep <- mapM (fun i => rd vold (intvar_ix e gp i)) (zrange 0 6) ;;
    alpha <- rd vold (intvar_ix e gp 6) ;;
    let p := plastic_step m eps ep alpha in
    vnew <- run_stores (map (fun i => (intvar_ix e gp i, lget (ps_eps_p p) i)) (zrange 0 6)
                        ++ [(intvar_ix e gp 6, ps_alpha p)]) vnew ;;
    Ok (ps_nl p, ps_stress p, vnew)
  else Ok (false, lin_stress3 (m_lambda m) (m_mu m) eps, vnew).

(** deps, src/assembly.cpp:574 *)
Definition deps_pert : T := dec 1 8.
(** get_ctan_plast_pert, src/assembly.cpp:571-588; ctan[j][i] as a list of columns *)
Definition ctan_plast_pert (u vold vnew : arr T) (ex ey ez gp : Z)
  : res ((Z -> Z -> T) * arr T) :=
  e0 <- get_strain3D u ex ey ez gp ;;
  ' s0 <- get_stress3D vold vnew ex ey ez gp e0 ;;
  let sig0 := snd (fst s0) in
  ' cs <- foldM (fun st i =>
      let ep := ltab 6 (fun j => if (j =? i)%Z then lget e0 j + deps_pert else lget e0 j) in
      ' s <- get_stress3D vold (snd st) ex ey ez gp ep ;;
      Ok (fst st ++ [ltab 6 (fun j => (lget (snd (fst s)) j - lget sig0 j) / deps_pert)], snd s))
    (zrange 0 6) ([], snd s0) ;;
  Ok (fun j i => lget (nth (Z.to_nat i) (fst cs) []) j, snd cs).

(** double wg, src/assembly.cpp:436, 691, 743, 806, 865 *)
Definition wg2 : T := dec 25 2 * dx * dy.
(** src/assembly.cpp:502, 716, 770, 829, 900 *)
Definition wg3 : T := ofZ 1 / ofZ 8 * dx * dy * dz.

(** get_elem_mat2D, src/assembly.cpp:366-443 *)
Definition get_elem_mat2D (ex ey : Z) : res (list T) :=
  ' mp <- get_material (glo_elem3D nx ny ex ey 0) ;;
  let c := ctan2 (m_E (fst mp)) (m_nu (fst mp)) in
  Ok (fold_left (fun Ae gp => add_mat 3 8 (B2 gp) c wg2 Ae) (zrange 0 4) (zeros 64)).

(** get_elem_mat3D, src/assembly.cpp:445-509; plastic cells evaluate the stress
    and so write the trial internal variables *)
Definition get_elem_mat3D (u vold vnew : arr T) (ex ey ez : Z) : res (list T * arr T) :=
  ' mp <- get_material (glo_elem3D nx ny ex ey ez) ;;
  let m := fst mp in
  foldM (fun st gp =>
    ' cv <- (if snd mp : bool then ctan_plast_pert u vold (snd st) ex ey ez gp
             else Ok (ctan3 (m_lambda m) (m_mu m), snd st)) ;;
    Ok (add_mat 6 24 (B3 gp) (fst cv) wg3 (fst st), snd cv))
    (zrange 0 8) (zeros 576, vnew).

(** get_elem_rhs2D, src/assembly.cpp:654-699; the flag is the last Gauss point's *)
Definition get_elem_rhs2D (u : arr T) (ex ey : Z) : res (list T * bool) :=
  foldM (fun st gp =>
    eps <- get_strain2D u ex ey gp ;;
    ' s <- get_stress2D ex ey gp eps ;;
    Ok (add_rhs 3 8 (B2 gp) (snd s) wg2 (fst st), fst s))
    (zrange 0 4) (zeros 8, false).

(** get_elem_rhs3D, src/assembly.cpp:701-722: *non_linear is overwritten at each
    Gauss point, so the last one is returned *)
Definition get_elem_rhs3D (u vold vnew : arr T) (ex ey ez : Z) : res (list T * bool * arr T) :=
  foldM (fun st gp =>
    eps <- get_strain3D u ex ey ez gp ;;
    ' s <- get_stress3D vold (snd st) ex ey ez gp eps ;;
    Ok (add_rhs 6 24 (B3 gp) (snd (fst s)) wg3 (fst (fst st)), fst (fst s), snd s))
    (zrange 0 8) (zeros 24, false, vnew).

(** the element loops in program order, src/assembly.cpp:184-185, 342-343, 733-734,
    797-798, 852-853 and src/micro.cpp:119-120 *)
Definition els2 : list (Z * Z) :=
  flat_map (fun ex => map (fun ey => (ex, ey)) (zrange 0 (ny - 1))) (zrange 0 (nx - 1)).
(** src/assembly.cpp:235-237, 353-355, 759-761, 819-821, 886-888 and src/micro.cpp:127-129 *)
Definition els3 : list (Z * Z * Z) :=
  flat_map (fun ex => flat_map (fun ey => map (fun ez => (ex, ey, ez)) (zrange 0 (nz - 1)))
    (zrange 0 (ny - 1))) (zrange 0 (nx - 1)).

(** ** Prescribed displacements *)
(** dux and duy of one node, e.g. src/assembly.cpp:37-40 *)
Definition displ2 (eps : list T) (n : Z) (x y : T) : list (Z * T) :=
  [ ((n * 2)%Z, lget eps 0 * x + dec 5 1 * lget eps 2 * y);
    ((n * 2 + 1)%Z, dec 5 1 * lget eps 2 * x + lget eps 1 * y) ].
(** the four sides, src/assembly.cpp:33-68 *)
Definition set_displ2_stores (eps : list T) : list (Z * T) :=
  flat_map (fun i => displ2 eps i (ofZ i * dx) (dec 0 1)) (zrange 0 nx)
  ++ flat_map (fun i => displ2 eps (i + (ny - 1) * nx) (ofZ i * dx) (v_ly V)) (zrange 0 nx)
  ++ flat_map (fun i => displ2 eps ((i + 1) * nx) (dec 0 1) (ofZ (i + 1) * dy)) (zrange 0 (ny - 2))
  ++ flat_map (fun i => displ2 eps ((i + 2) * nx - 1) (v_lx V) (ofZ (i + 1) * dy)) (zrange 0 (ny - 2)).

(** dux, duy and duz of one node, e.g. src/assembly.cpp:79-84 *)
Definition displ3 (eps : list T) (n : Z) (x y z : T) : list (Z * T) :=
  let h := dec 5 1 in
  [ ((n * 3)%Z, lget eps 0 * x + h * lget eps 3 * y + h * lget eps 4 * z);
    ((n * 3 + 1)%Z, h * lget eps 3 * x + lget eps 1 * y + h * lget eps 5 * z);
    ((n * 3 + 2)%Z, h * lget eps 4 * x + h * lget eps 5 * y + lget eps 2 * z) ].
(** the six faces, src/assembly.cpp:72-165 *)
Definition set_displ3_stores (eps : list T) : list (Z * T) :=
  flat_map (fun i => flat_map (fun j =>
     displ3 eps (ni i j 0) (ofZ i * dx) (ofZ j * dy) (dec 0 1)) (zrange 0 ny)) (zrange 0 nx)
  ++ flat_map (fun i => flat_map (fun j =>
     displ3 eps (ni i j (nz - 1)) (ofZ i * dx) (ofZ j * dy) (v_lz V)) (zrange 0 ny)) (zrange 0 nx)
  ++ flat_map (fun i => flat_map (fun k =>
     displ3 eps (ni i 0 k) (ofZ i * dx) (dec 0 1) (ofZ k * dz)) (zrange 1 (nz - 1))) (zrange 0 nx)
  ++ flat_map (fun i => flat_map (fun k =>
     displ3 eps (ni i (ny - 1) k) (ofZ i * dx) (v_ly V) (ofZ k * dz)) (zrange 1 (nz - 1))) (zrange 0 nx)
  ++ flat_map (fun j => flat_map (fun k =>
     displ3 eps (ni 0 j k) (dec 0 1) (ofZ j * dy) (ofZ k * dz)) (zrange 1 (nz - 1))) (zrange 1 (ny - 1))
  ++ flat_map (fun j => flat_map (fun k =>
     displ3 eps (ni (nx - 1) j k) (v_lx V) (ofZ j * dy) (ofZ k * dz)) (zrange 1 (nz - 1))) (zrange 1 (ny - 1)).

(** set_displ, src/assembly.cpp:29-168 *)
Definition set_displ (eps : list T) (u : arr T) : res (arr T) :=
  if (v_dim V =? 2)%Z then run_stores (set_displ2_stores eps) u
  else if (v_dim V =? 3)%Z then run_stores (set_displ3_stores eps) u
  else Ok u.

(** ** Residual *)
(** the zeroing of one node, e.g. src/assembly.cpp:214-215 and 275-276 *)
Definition zero_node (d n : Z) : list (Z * T) :=
  map (fun c => ((n * d + c)%Z, dec 0 1)) (zrange 0 d).
(** src/assembly.cpp:211-230 *)
Definition zero_bnd2 : list (Z * T) :=
  flat_map (fun i => zero_node 2 i) (zrange 0 nx)
  ++ flat_map (fun i => zero_node 2 (i + (ny - 1) * nx)) (zrange 0 nx)
  ++ flat_map (fun i => zero_node 2 ((i + 1) * nx)) (zrange 0 (ny - 2))
  ++ flat_map (fun i => zero_node 2 ((i + 2) * nx - 1)) (zrange 0 (ny - 2)).
(** src/assembly.cpp:270-318 *)
Definition zero_bnd3 : list (Z * T) :=
  flat_map (fun i => flat_map (fun j => zero_node 3 (ni i j 0)) (zrange 0 ny)) (zrange 0 nx)
  ++ flat_map (fun i => flat_map (fun j => zero_node 3 (ni i j (nz - 1))) (zrange 0 ny)) (zrange 0 nx)
  ++ flat_map (fun i => flat_map (fun k => zero_node 3 (ni i 0 k)) (zrange 1 (nz - 1))) (zrange 0 nx)
  ++ flat_map (fun i => flat_map (fun k => zero_node 3 (ni i (ny - 1) k)) (zrange 1 (nz - 1))) (zrange 0 nx)
  ++ flat_map (fun j => flat_map (fun k => zero_node 3 (ni 0 j k)) (zrange 1 (nz - 1))) (zrange 1 (ny - 1))
  ++ flat_map (fun j => flat_map (fun k => zero_node 3 (ni (nx - 1) j k)) (zrange 1 (nz - 1))) (zrange 1 (ny - 1)).

(** src/micro.cpp:41 *)
Definition nn : Z := (nx * ny * nz)%Z.
(** nn * dim, the length of u, du and b (src/micro.cpp:58-60) *)
Definition ndofs : Z := (nn * v_dim V)%Z.

(** b[index[i]] += be[i]; index[] of src/assembly.cpp:187-206 and 239-264 *)
Definition rhs_adds (d : Z) (sn : list Z) (be : list T) : list (Z * T) :=
  map (fun i => ((znth sn (i / d) * d + i mod d)%Z, lget be i)) (zrange 0 (Z.of_nat (length sn) * d)).

(** assembly_rhs, src/assembly.cpp:170-331: residual vector b, *non_linear,
    trial internal variables and the returned norm *)
Definition assembly_rhs (u vold vnew b : arr T) : res (arr T * bool * arr T * T) :=
  b <- run_stores (map (fun i => (i, dec 0 1)) (zrange 0 ndofs)) b ;;
  ' st <- (if (v_dim V =? 2)%Z then
    ' st <- foldM (fun st e => let '(ex, ey) := e in
       ' r <- get_elem_rhs2D u ex ey ;;
       b <- run_adds (rhs_adds 2 (sn2 nx ex ey) (fst r)) (fst st) ;;
       Ok (b, if snd r then true else snd st)) els2 (b, false) ;;
    b <- run_stores zero_bnd2 (fst st) ;;
    Ok (b, snd st, vnew)
  else if (v_dim V =? 3)%Z then
    ' st <- foldM (fun st e => let '(ex, ey, ez) := e in
       ' r <- get_elem_rhs3D u vold (snd st) ex ey ez ;;
       b <- run_adds (rhs_adds 3 (sn3 nx ny ex ey ez) (fst (fst r))) (fst (fst st)) ;;
       Ok (b, (if snd (fst r) then true else snd (fst st)), snd r)) els3 (b, false, vnew) ;;
    b <- run_stores zero_bnd3 (fst (fst st)) ;;
    Ok (b, snd (fst st), snd st)
  else Ok (b, false, vnew)) ;;
  b <- upd_for ndofs (fun b i => x <- rd b i ;; Ok (- x)) (fst (fst st)) ;;
  n2 <- dotM ndofs b b ;;
  Ok (b, snd (fst st), snd st, osqrt n2).

(** ** Matrix *)
(** assembly_mat, src/assembly.cpp:333-364 *)
Definition assembly_mat (u vold vnew : arr T) (A : ell T) : res (ell T * arr T) :=
  A <- ell_set_zero_mat A ;;
  if (v_dim V =? 2)%Z then
    A <- foldM (fun A e => let '(ex, ey) := e in
       Ae <- get_elem_mat2D ex ey ;;
       ell_add_struct2D A ex ey (lget Ae) 2 nx ny) els2 A ;;
    A <- ell_set_bc_2D A 2 nx ny ;;
    Ok (A, vnew)
  else if (v_dim V =? 3)%Z then
    ' st <- foldM (fun st e => let '(ex, ey, ez) := e in
       ' r <- get_elem_mat3D u vold (snd st) ex ey ez ;;
       A <- ell_add_struct3D (fst st) ex ey ez (lget (fst r)) 3 nx ny nz ;;
       Ok (A, snd r)) els3 (A, vnew) ;;
    A <- ell_set_bc_3D (fst st) 3 nx ny nz ;;
    Ok (A, snd st)
  else Ok (A, vnew).

(** ** Averages *)
(** src/micro.cpp:48 *)
Definition nvoi : Z := if (v_dim V =? 2)%Z then 3 else 6.

(** calc_ave_stress, src/assembly.cpp:724-788 *)
Definition calc_ave_stress (u vold vnew : arr T) : res (list T * arr T) :=
  ' st <- (if (v_dim V =? 2)%Z then
    foldM (fun st e => let '(ex, ey) := e in
      aux <- foldM (fun aux gp =>
        eps <- get_strain2D u ex ey gp ;;
        ' s <- get_stress2D ex ey gp eps ;;
        Ok (add_ave 3 (snd s) wg2 aux)) (zrange 0 4) (zeros 3) ;;
      Ok (add_vec 3 aux (fst st), snd st)) els2 (zeros 3, vnew)
  else if (v_dim V =? 3)%Z then
    foldM (fun st e => let '(ex, ey, ez) := e in
      ' r <- foldM (fun r gp =>
        eps <- get_strain3D u ex ey ez gp ;;
        ' s <- get_stress3D vold (snd r) ex ey ez gp eps ;;
        Ok (add_ave 6 (snd (fst s)) wg3 (fst r), snd s)) (zrange 0 8) (zeros 6, snd st) ;;
      Ok (add_vec 6 (fst r) (fst st), snd r)) els3 (zeros 6, vnew)
  else Ok (zeros nvoi, vnew)) ;;
  Ok (ltab nvoi (fun v => lget (fst st) v / (v_lx V * v_ly V)), snd st).

(** calc_ave_strain, src/assembly.cpp:790-844 *)
Definition calc_ave_strain (u : arr T) : res (list T) :=
  s <- (if (v_dim V =? 2)%Z then
    foldM (fun s e => let '(ex, ey) := e in
      aux <- foldM (fun aux gp =>
        eps <- get_strain2D u ex ey gp ;; Ok (add_ave 3 eps wg2 aux)) (zrange 0 4) (zeros 3) ;;
      Ok (add_vec 3 aux s)) els2 (zeros 3)
  else if (v_dim V =? 3)%Z then
    foldM (fun s e => let '(ex, ey, ez) := e in
      aux <- foldM (fun aux gp =>
        eps <- get_strain3D u ex ey ez gp ;; Ok (add_ave 6 eps wg3 aux)) (zrange 0 8) (zeros 6) ;;
      Ok (add_vec 6 aux s)) els3 (zeros 6)
  else Ok (zeros nvoi)) ;;
  Ok (ltab nvoi (fun v => lget s v / (v_lx V * v_ly V))).

(** the division by the volume, src/assembly.cpp:877-880 and 913-916 *)
Definition field_stores (nv e : Z) (aux : list T) (vol : T) : list (Z * T) :=
  map (fun v => ((e * nv + v)%Z, lget aux v / vol)) (zrange 0 nv).
(** calc_fields, src/assembly.cpp:846-922: elem_strain, elem_stress and the trial
    internal variables *)
Definition calc_fields (u vold vnew estrain estress : arr T) : res (arr T * arr T * arr T) :=
  if (v_dim V =? 2)%Z then
    foldM (fun st e => let '(ex, ey) := e in
      ' a <- foldM (fun a gp =>
        eps <- get_strain2D u ex ey gp ;;
        ' s <- get_stress2D ex ey gp eps ;;
        Ok (add_ave 3 eps wg2 (fst a), add_ave 3 (snd s) wg2 (snd a)))
        (zrange 0 4) (zeros 3, zeros 3) ;;
      let vol := dx * dy in
      let ei := glo_elem3D nx ny ex ey 0 in
      es <- run_stores (field_stores 3 ei (fst a) vol) (fst (fst st)) ;;
      et <- run_stores (field_stores 3 ei (snd a) vol) (snd (fst st)) ;;
      Ok (es, et, snd st)) els2 (estrain, estress, vnew)
  else if (v_dim V =? 3)%Z then
    foldM (fun st e => let '(ex, ey, ez) := e in
      ' a <- foldM (fun a gp =>
        eps <- get_strain3D u ex ey ez gp ;;
        ' s <- get_stress3D vold (snd a) ex ey ez gp eps ;;
        Ok (add_ave 6 eps wg3 (fst (fst a)), add_ave 6 (snd (fst s)) wg3 (snd (fst a)), snd s))
        (zrange 0 8) (zeros 6, zeros 6, snd st) ;;
      let vol := dx * dy * dz in
      let ei := glo_elem3D nx ny ex ey ez in
      es <- run_stores (field_stores 6 ei (fst (fst a)) vol) (fst (fst st)) ;;
      et <- run_stores (field_stores 6 ei (snd (fst a)) vol) (snd (fst st)) ;;
      Ok (es, et, snd a)) els3 (estrain, estress, vnew)
  else Ok (estrain, estress, vnew).
End Obj.
End Model.
Arguments pstep : clear implicits.
