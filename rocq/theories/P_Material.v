(** C36-C39: steel strengths and the material file. *)

From Coq Require Import ZArith Reals Lra Bool List String Sorted.
From Verif Require Import Base Num RNum PyNum LoadCase Beam Material AS4100 MaterialFacts.
Import ListNotations.
Open Scope R_scope.

(** C36: inside the table, the first band whose upper bound is at least the thickness. *)
Theorem C36_first_covering_band :
  forall (t : R) ts fys fus d, ts <> [] ->
  List.length fys = List.length ts -> List.length fus = List.length ts ->
  0 <= t -> Sorted Rlt ts -> t <= last ts d ->
  exists i b fy fu, nth_error ts i = Some b /\ nth_error fys i = Some fy /\ nth_error fus i = Some fu
  /\ t <= b /\ (forall j b', (j < i)%nat -> nth_error ts j = Some b' -> b' < t)
  /\ (forall y, In y [YUStr "Y"; YUStr "y"; YUBool true] -> get_f t y [ts; fys; fus] = Ok fy)
  /\ (forall y, In y [YUStr "U"; YUStr "u"; YUBool false] -> get_f t y [ts; fys; fus] = Ok fu).
Proof. exact first_band. Qed.
Print Assumptions C36_first_covering_band.

(** Everything else is refused (the three cases and the one above are exhaustive). *)
Theorem C36_refusals :
  forall (t : R) y ts fys fus d, ts <> [] ->
  (t < 0 -> get_f t y [ts; fys; fus] = Err InvalidThicknessError)
  /\ (0 <= t -> ~ Sorted Rlt ts -> get_f t y [ts; fys; fus] = Err InvalidMaterialError)
  /\ (0 <= t -> Sorted Rlt ts -> last ts d < t -> get_f t y [ts; fys; fus] = Err InvalidThicknessError).
Proof. exact refusals. Qed.
Print Assumptions C36_refusals.

Example C36_case : get_f (10 / 1000) (YUStr "Y") tbl250 = Ok (mpa 260)
  /\ get_f (8 / 1000) (YUStr "Y") tbl250 = Ok (mpa 280).
Proof. exact tbl250_cases. Qed.

(** C37, exact arithmetic. *)
Theorem C37_shipped_steels :
  forall name m tbl (t t' : R),
  load_material material_toml name = Ok m -> sget "strengths" (mprops m) = Ok (TTable tbl) ->
  0 < t <= t' -> t' <= last (hd [] tbl) 0 ->
  exists fy fu fy' fu',
    get_f t (YUStr "Y") tbl = Ok fy /\ get_f t (YUStr "U") tbl = Ok fu
    /\ get_f t' (YUStr "Y") tbl = Ok fy' /\ get_f t' (YUStr "U") tbl = Ok fu'
    /\ fy <= fu /\ fy' <= fu' /\ fy' <= fy /\ fu' <= fu.
Proof. exact shipped_R. Qed.
Print Assumptions C37_shipped_steels.

(** C37 as executed, on doubles. *)
Theorem C37_shipped_steels_doubles :
  forall name m tbl (t t' : pynum),
  load_material material_toml name = Ok m -> sget "strengths" (mprops m) = Ok (TTable tbl) ->
  Pok t -> Pok t' ->
  nltb (nint 0) t = true -> nleb t t' = true -> nleb t' (last (hd [] tbl) (nint 0)) = true ->
  exists fy fu fy' fu',
    get_f t (YUStr "Y") tbl = Ok fy /\ get_f t (YUStr "U") tbl = Ok fu
    /\ get_f t' (YUStr "Y") tbl = Ok fy' /\ get_f t' (YUStr "U") tbl = Ok fu'
    /\ nleb fy fu = true /\ nleb fy' fu' = true /\ nleb fy' fy = true /\ nleb fu' fu = true.
Proof. exact shipped_P. Qed.
Print Assumptions C37_shipped_steels_doubles.

(** Seven of the eight shipped materials have a strength table. *)
Example C37_case : List.length (filter (fun k =>
    match load_material (T := pynum) material_toml k with
    | Ok m => match sget "strengths" (mprops m) with Ok (TTable _) => true | _ => false end
    | _ => false end) (load_list (T := pynum) material_toml)) = 7%nat.
Proof. vm_compute. reflexivity. Qed.

(** C38 is false: grade 250, bars of diameter 8 and 8.02 mm. *)
Theorem C38_larger_bar_refuted :
  exists m a1 a2 n1 n2,
  load_material (T := R) material_toml "AS3678-2016-250" = Ok m
  /\ default_as4100 None (Some (SCircle (4 / 1000) (Some m))) = Ok a1
  /\ default_as4100 None (Some (SCircle (401 / 100000) (Some m))) = Ok a2
  /\ Nt a1 PosNone = Ok n1 /\ Nt a2 PosNone = Ok n2 /\ n2 < n1.
Proof. exact bigger_is_weaker. Qed.
Print Assumptions C38_larger_bar_refuted.

(** What holds: it is never weaker while no thickness bound is crossed. *)
Theorem C38_larger_bar_partial :
  forall name m tbl (r1 r2 : R) phi au kt a1 a2,
  load_material material_toml name = Ok m -> sget "strengths" (mprops m) = Ok (TTable tbl) ->
  0 <= au -> 0 <= kt -> 0 < r1 <= r2 -> r2 * 2 <= last (hd [] tbl) 0 ->
  (forall b, In b (hd [] tbl) -> b < r1 * 2 \/ r2 * 2 <= b) ->
  make_as4100 phi au kt None (Some (SCircle r1 (Some m))) = Ok a1 ->
  make_as4100 phi au kt None (Some (SCircle r2 (Some m))) = Ok a2 ->
  exists n1 n2, Nt a1 PosNone = Ok n1 /\ Nt a2 PosNone = Ok n2 /\ n1 <= n2.
Proof. exact same_band_stronger. Qed.
Print Assumptions C38_larger_bar_partial.

Example C38_case : forall b, In b (hd [] tbl250) -> b < 45 / 10000 * 2 \/ 5 / 1000 * 2 <= b.
Proof. exact tbl250_gap. Qed.

(** C39: the keys, the look-up, and the KeyError. *)
Theorem C39_list_and_lookup :
  forall (T : Type) (file : sdict (sdict (tval T))) d, load_all file = Ok d ->
  map fst d = load_list file
  /\ (forall k, load_material file k = sget k d)
  /\ (forall k, ~ In k (load_list file) -> load_material file k = Err KeyError)
  /\ (forall k, In k (load_list file) -> exists m, load_material file k = Ok m).
Proof. exact @load_material_spec. Qed.
Print Assumptions C39_list_and_lookup.

(** Each material carries what its table in the file says, and nothing of it twice. *)
Theorem C39_materials_carry_the_file :
  forall (T : Type) (file : sdict (sdict (tval T))) d k v, NoDup (map fst file) ->
  load_all file = Ok d -> In (k, v) file ->
  exists m, load_material file k = Ok m
  /\ sget "name" v = Ok (mname m) /\ sget "standard" v = Ok (mstandard m)
  /\ (exists tv, sget "type" v = Ok tv /\ match tv with
        | TStr s => mtype m = Some Steel /\ s = "steel"%string \/ mtype m = Some Concrete /\ s = "concrete"%string
        | _ => mtype m = None end)
  /\ (forall k, k <> "type" -> k <> "name" -> k <> "standard" -> sget k (mprops m) = sget k v)%string
  /\ (NoDup (map fst v) -> forall k, In k ["type"; "name"; "standard"]%string ->
        sget k (mprops m) = Err KeyError).
Proof. exact @material_carries. Qed.
Print Assumptions C39_materials_carry_the_file.

Theorem C39_unknown_type :
  forall (T : Type) (file : sdict (sdict (tval T))) k v s,
  (forall k' v', In (k', v') file -> exists s' n st,
     sget "type" v' = Ok (TStr s') /\ sget "name" v' = Ok n /\ sget "standard" v' = Ok st) ->
  In (k, v) file -> sget "type" v = Ok (TStr s) -> s <> "steel"%string -> s <> "concrete"%string ->
  load_all file = Err ValueError.
Proof. exact @unknown_type. Qed.
Print Assumptions C39_unknown_type.

Example C39_case : NoDup (map fst (material_toml (T := R)))
  /\ exists d, load_all (material_toml (T := R)) = Ok d /\ List.length d = 8%nat.
Proof. exact shipped_file. Qed.
