(** The two plastic tangents that get_elem_mat3D can be switched to (ctan_secant and
    ctan_exact, src/assembly.cpp:462-472; both switches are false in the source). *)
From Verif Require Import Base Scalar Grid AssemblyModel.
Open Scope Z_scope.

Section Tan.
Context {T : Type} `{OT : Ops T}.
Variable V : env T.

(** strain_pert of get_ctan_plast_sec, src/assembly.cpp:518-524 *)
Definition sec_strain (e0 : list T) (i : Z) : list T :=
  ltab 6 (fun j => if j =? i then (if oltb (dec 1 7) (oabs (lget e0 i)) then lget e0 i else dec 1 8) else dec 0 1).
(** get_ctan_plast_sec, src/assembly.cpp:511-532; ctan[j][i] as a list of columns *)
Definition ctan_plast_sec (u vold vnew : arr T) (ex ey ez gp : Z) : res ((Z -> Z -> T) * arr T) :=
  e0 <- get_strain3D V u ex ey ez gp ;;
  ' cs <- foldM (fun st i =>
      let ep := sec_strain e0 i in
      ' s <- get_stress3D V vold (snd st) ex ey ez gp ep ;;
      Ok (fst st ++ [ltab 6 (fun j => odiv (lget (snd (fst s)) j) (lget ep i))], snd s))
    (zrange 0 6) ([], vnew) ;;
  Ok (fun j i => lget (nth (Z.to_nat i) (fst cs) []) j, snd cs).

(** get_ctan_plast_exact, src/assembly.cpp:534-569: the strain is computed and not used,
    everything plastic is commented out (558-568) *)
Definition ctan_plast_exact (u : arr T) (ex ey ez gp : Z) : res (Z -> Z -> T) :=
  _ <- get_strain3D V u ex ey ez gp ;;
  ' mp <- get_material V (glo_elem3D (v_nx V) (v_ny V) ex ey ez) ;;
  Ok (ctan3 (m_lambda (fst mp)) (m_mu (fst mp))).
End Tan.
