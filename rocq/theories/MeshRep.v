(** * When the arrays of a mesh store hold exactly an abstract mesh. *)
From Verif Require Import Base CsrModel CsrSpec MeshModel MeshSpec.

(** Double properties: [rows] holds, for each cell, the values of each property. *)
Record rep_props (ps : props) (names : list string) (rows : list (list (list N))) : Prop := {
  rp_ids : pids ps = names;
  rp_nodup : NoDup names;
  rp_index : forall id p, pindex ps !! id = Some p <-> names !! p = Some id;
  rp_len : length (pvals ps) = length names;
  rp_rows : Forall (fun x => length x = length names) rows;
  rp_vals : forall p c, pvals ps !! p = Some c -> csr_rep c ((fun x => default [] (x !! p)) <$> rows)
}.

(** The data of one dimension, [n] cells. *)
Record rep_cells (d : dim) (c : cells) (n : nat) (marks : list N) (acts : list bool) (origs : list N)
       (upds : list (option (gset N))) (names : list string) (rows : list (list (list N))) : Prop := {
  rc_num : cnum c = n;
  rc_mark : cmark c = marks;
  rc_act : cact c = acts;
  rc_orig : corig c = match d with D0 => [] | _ => origs end;
  rc_upd : forall k, cupd c !! k = upds !! N.to_nat k ≫= id;
  rc_upd_ok : forall k s, upds !! k = Some (Some s) -> s <> ∅ /\ forall v, v ∈ s -> (v < N.of_nat n)%N;
  rc_props : rep_props (cprops c) names rows
}.

Record represents (m : mesh) (a : amesh) : Prop := {
  r_dim : mdim m = am_dim a;
  r_cells : forall d, let cs := am_cells a d in
            rep_cells d (mcells m d) (length cs) (ac_mark <$> cs) (ac_act <$> cs) (ac_orig <$> cs)
                      (ac_upd <$> cs) (am_names a d) (ac_prop <$> cs);
  r_rel : forall r, csr_rep (mrel m r) (row_of r <$> am_cells a (src r));
  r_coord : mcoord m = concat (ac_geo <$> am_cells a D0);
  r_ext : mext m = concat (ac_geo <$> am_cells a D1);
  r_geo : forall d, Forall (fun g => length g = geo_size d) (ac_geo <$> am_cells a d)
}.
