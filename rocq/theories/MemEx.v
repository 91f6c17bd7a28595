(** The ledger theorems with their heap condition spelled out, and cases. *)
From Coq Require Import Reals Permutation ZifyBool.
From Verif Require Import Base Scalar EllSpec EllModel AssemblyModel MicroModel OutputModel ApiBase ApiRun ApiHist Build ApiSpec ApiProps ApiCases ApiCommit OneCell ApiEx Invalid BuildEx EllFinal CgPure CgTheory CgFinal CgProps JacProps LedgerModel LedgerProps.
Open Scope Z_scope.

Section S.
Context {T : Type} `{OT : Ops T}.
Lemma ledger_all fuel orc (j : junk T) dim size mtype mp mt ps h0 cs fs :
  NoDup (h_live h0) -> (forall b, In b (h_live h0) -> b < h_next h0) ->
  match construct fuel orc j dim size mtype mp mt ps with
  | Err e => l_construct fuel orc j dim size mtype mp mt ps h0 = Err e
  | Ok o => exists p h, l_construct fuel orc j dim size mtype mp mt ps h0 = Ok (o, p, h) /\
      match run cs (o, fs) with
      | Err e => l_run cs (o, fs) p h = Err e
      | Ok (o', fs', rs) => exists p' h' h'', l_run cs (o, fs) p h = Ok (o', fs', rs, p', h') /\
          length (h_live h') = (length (h_live h0) + 10 + 2 * length (filter (fun g => match g_n g with Some _ => true | None => false end) (o_gps o')))%nat /\
          l_destroy p' h' = Ok h'' /\ Permutation (h_live h'') (h_live h0)
      end
  end.
Proof. intros A B. exact (ledger fuel orc j dim size mtype mp mt ps h0 cs fs (conj A B)). Qed.
Lemma cg_releases_all slot (s : solver T) m nF nn b x h r h' :
  NoDup (h_live h) -> (forall k, In k (h_live h) -> k < h_next h) -> l_cg slot s m nF nn b x h = Ok (r, h') ->
  cgpd slot s m nF nn b x = Ok r /\ Permutation (h_live h') (h_live h).
Proof. intros A B. exact (cg_releases slot s m nF nn b x h r h' (conj A B)). Qed.
Lemma jacobi_leaks_all (s : solver T) m nF nx ny b x h r h' :
  NoDup (h_live h) -> (forall k, In k (h_live h) -> k < h_next h) -> l_jacobi s m nF nx ny b x h = Ok (r, h') ->
  ell_solve_jacobi_2D s m nF nx ny b x = Ok r /\ exists k e, ~ In k (h_live h) /\ ~ In e (h_live h) /\ k <> e /\ h_live h' = k :: e :: h_live h.
Proof. intros A B. exact (jacobi_leaks s m nF nx ny b x h r h' (conj A B)). Qed.
Lemma wrapper_leaks_all (ws : list (wcall T)) fs h0 :
  NoDup (h_live h0) -> (forall b, In b (h_live h0) -> b < h_next h0) ->
  match wrun ws (None, fs) with
  | Ok (s', rs) => exists p' h', l_wrun ws (None, fs) (mkPtrs [] []) h0 = Ok (s', rs, p', h') /\
      (length (h_live h0) + 11 * length (filter (fun c => match c with WConstruct _ _ _ _ _ _ _ _ _ => true | _ => false end) ws) <= length (h_live h'))%nat
  | Err e => l_wrun ws (None, fs) (mkPtrs [] []) h0 = Err e
  end.
Proof. intros A B. exact (wrapper_leaks ws fs h0 (conj A B)). Qed.
Lemma l_jacobi_ok (s : solver T) m nF nx ny b x h r : ell_solve_jacobi_2D s m nF nx ny b x = Ok r -> exists h', l_jacobi s m nF nx ny b x h = Ok (r, h').
Proof. intros E. unfold l_jacobi, jacobi_blocks. destruct (mallocs 2 h) as (l, h'). exists h'. cbn [bind]. rewrite E. reflexivity. Qed.
End S.

Lemma ledger_ex : heap_ok (mkHeap 5 [4; 2]) /\ exists o o' fs rs,
  construct fuel40 (fun _ => counting) (flat_junk 1%R) 3 [4; 5; 3] 0 mp5 [1; 2] ps20 = Ok o /\ run story (o, no_files) = Ok (o', fs, rs) /\ length (o_gps o') = 2%nat.
Proof.
  split.
  - split; cbn [h_live h_next].
    + constructor; [intros [K|[]]; discriminate|]. constructor; [intros []|constructor].
    + intros b [<-|[<-|[]]]; lia.
  - set (A := real_args3 4 5 3 1 2 ltac:(lia) ltac:(lia) ltac:(lia) ltac:(apply types_ok) ltac:(apply types_ok)).
    destruct (counted 3 4 5 3 0 mp5 [1; 2]%Z ps20 1%R A) as (o0 & E).
    assert (O : is_object o0) by (exists 3%Z, 4%Z, 5%Z, 3%Z, 0%Z, mp5, [1; 2]%Z, ps20, fuel40, (fun _ => counting), (flat_junk 1%R); split; [exact A|]; split; [apply flat_total|exact E]).
    destruct (harmless_ok o0 no_files story O (story_harmless _)) as (o & fs & rs & Er). exists o0, o, fs, rs. split; [exact E|]. split; [exact Er|].
    assert (Rr : reaches o0 story o fs) by (exists no_files, rs; exact Er).
    destruct (keyed_store _ _ _ _ O Rr) as (I & _). rewrite <- (map_length g_id), I, (proj1 (proj2 story_facts)). reflexivity.
Qed.
Lemma wrapper_ex : exists (ws : list (wcall R)) s rs, wrun ws (None, no_files) = Ok (s, rs) /\
  length (filter (fun c => match c with WConstruct _ _ _ _ _ _ _ _ _ => true | _ => false end) ws) = 3%nat.
Proof.
  set (A := real_args3 4 5 3 1 2 ltac:(lia) ltac:(lia) ltac:(lia) ltac:(apply types_ok) ltac:(apply types_ok)).
  destruct (counted 3 4 5 3 0 mp5 [1; 2]%Z ps20 1%R A) as (o0 & E).
  assert (O : is_object o0) by (exists 3%Z, 4%Z, 5%Z, 3%Z, 0%Z, mp5, [1; 2]%Z, ps20, fuel40, (fun _ => counting), (flat_junk 1%R); split; [exact A|]; split; [apply flat_total|exact E]).
  set (w := WConstruct fuel40 (fun _ => counting) (flat_junk 1%R) 3 [4; 5; 3]%Z 0 mp5 [1; 2]%Z ps20).
  destruct (wrapper_twice _ _ _ _ _ _ _ _ _ _ no_files E) as (p & fs1 & r1 & A1). fold w in A1.
  destruct (harmless_ok o0 (construct_files o0 fs1) story O (story_harmless _)) as (o & fs & rs & Er).
  exists ([w; w] ++ w :: map WCall story), (Some o, fs), (r1 ++ RUnit :: rs). split; [|reflexivity].
  exact (wrapper_runs _ _ _ _ _ _ _ _ _ _ _ _ _ _ _ _ _ _ A1 E Er).
Qed.
Lemma jacobi_ex : exists (m : ell R) sv b x r h', l_jacobi sv m 2 4 4 b x (mkHeap 0 []) = Ok (r, h').
Proof.
  destruct cg_case as (m & W & b & x & bf & xf & Hb & Hx & _).
  cbn in W, Hb, Hx.
  destruct (jacobi_truth (mkSolver 10 0 1%R 0%R) m 2 4 4 b x bf xf W Hb Hx ltac:(cbn; lia)) as (sv' & x' & xf' & E & _).
  destruct (l_jacobi_ok _ _ _ _ _ _ _ (mkHeap 0 []) _ E) as (h' & Eh). exists m, (mkSolver 10 0 1%R 0%R), b, x, (sv', x'), h'. exact Eh.
Qed.
