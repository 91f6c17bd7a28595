(** C96: the files of output calls are XML documents.  xml is the reader of XmlProps.v, vtu_doc the
    element tree of a VTU file, events its tags and words in order; text rt f is the file f as characters, ints in decimal
    and doubles written by rt. *)
From Coq Require Import Reals String DecimalString.
From Verif Require Import Base Scalar Grid EllSpec EllModel AssemblyModel AsmPure AsmSpec MicroModel OutputModel NewtonBase ApiBase ApiRun ApiHist Build ApiSpec ApiProps ApiCases ApiCommit OneCell PlastRef Tangent
  FieldsBase VtuProps VtuData OutProps LogProps Linear Untouched TwoCell OutFields BuildEx XmlProps.
Open Scope string_scope.
Open Scope list_scope.
Open Scope Z_scope.

(** an output call after six calls on a 4x5x3 and on a 4x5 object; doubles written as -1.5e-10 *)
Example C96_example : exists j o0 o fs g o' fs' r, total_junk j /\ valid_args 3 4 5 3 0 mp5 [1; 2] ps20 /\ body_args 3 mp5 ps20 /\
  construct fuel40 (fun _ => counting) j 3 [4; 5; 3] 0 mp5 [1; 2] ps20 = Ok o0 /\ reaches o0 story o fs /\ lookup 7 (o_gps o) = Some g /\
  step (Output fuel40 counting 9 7) (o, fs) = Ok (o', fs', r).
Proof. exact shown. Qed.
Example C96_example_2d : exists j o0 o fs g o' fs' r, total_junk j /\ valid_args 2 4 5 1 1 mp5 [1; 0] ps20 /\ body_args 2 mp5 ps20 /\
  construct fuel40 (fun _ => counting) j 2 [4; 5; 1] 1 mp5 [1; 0] ps20 = Ok o0 /\ reaches o0 story o fs /\ lookup 7 (o_gps o) = Some g /\
  step (Output fuel40 counting 9 7) (o, fs) = Ok (o', fs', r).
Proof. exact shown2. Qed.
Example C96_example_doubles : number "-1.5e-10".
Proof. exact some_number. Qed.
(** what the reader takes and refuses *)
Example C96_example_accepts : xml (declaration ++ "<a x=" ++ q34 "1" ++ ">" ++ "12 -3<b></b>4</a> ")%string = Some (events (El "a" [("x", "1")] [Wd "12"; Wd "-3"; El "b" [] []; Wd "4"])).
Proof. exact reader_accepts. Qed.
Example C96_example_rejects : xml "<a></a>" = None /\ xml (declaration ++ "<a>")%string = None /\ xml (declaration ++ "<a></b>")%string = None /\ xml (declaration ++ "<a></a><b></b>")%string = None /\
  xml (declaration ++ "<a></a>1")%string = None /\ xml (declaration ++ "<a x=" ++ q34 "1" ++ " x=" ++ q34 "2" ++ "></a>")%string = None /\ xml (declaration ++ "<a><b></a></b>")%string = None /\
  xml (declaration ++ "<a x=1></a>")%string = None /\ xml (declaration ++ "<a>1 & 2</a>")%string = None.
Proof. exact reader_rejects. Qed.

(** C96.  The file of an output call is a well-formed document with the elements of vtu_doc: the
    counts of its Piece tag, and in each data array exactly the words, each separated from the next, that
    C55 describes (piece and data are the reader of C55).  vtu_doc shows that PointData begins with a stray >. *)
Theorem C96_output_is_xml : forall (T : Type) (OT : Ops T) (rt : T -> string) (o0 : obj T) cs o fs fuel pk t id g o' fs' r, (forall x, number (rt x)) ->
  is_object o0 -> reaches o0 cs o fs -> lookup id (o_gps o) = Some g -> step (Output fuel pk t id) (o, fs) = Ok (o', fs', r) ->
  exists f, f_vtu fs' = (id, t, f) :: f_vtu fs /\
  exists np nc ps co os ty du db es ss et pl hd, piece f = Some (np, nc) /\
    data "Position" f = Some ps /\ data "connectivity" f = Some co /\ data "offsets" f = Some os /\ data "types" f = Some ty /\
    data "displ" f = Some du /\ data "b" f = Some db /\ data "strain" f = Some es /\ data "stress" f = Some ss /\
    data "elem_type" f = Some et /\ data "plasticity" f = Some pl /\ data "hardening" f = Some hd /\
    let w := map (spell rt) in
    xml (text rt f) = Some (events (vtu_doc (decimal np) (decimal nc) (if v_dim (o_env o) =? 2 then "3" else "6")
      (w ps) (w co) (w os) (w ty) (w du) (w db) (w es) (w ss) (w et) (w pl) (w hd))).
Proof. exact @output_xml. Qed.
Print Assumptions C96_output_is_xml.
(** What the reader accepts is one element whose tags are nested. *)
Theorem C96_reader_sound : forall t e, xml t = Some e -> exists name attrs kids, e = events (El name attrs kids).
Proof. exact reader_sound. Qed.
Print Assumptions C96_reader_sound.
(** The ints of a file can be read back. *)
Theorem C96_ints_read_back : forall z, NilZero.int_of_string (decimal z) = Some (Z.to_int z).
Proof. exact decimal_back. Qed.
Print Assumptions C96_ints_read_back.
