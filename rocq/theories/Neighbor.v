(** * Bucket grid and neighbour search (src/bucket.cpp, src/neighbor_searcher.cpp) *)
From Verif Require Export Types.

Section Neighbor.
Context {N : Num}.
Local Open Scope num_scope.

(** Bucket, src/bucket.hpp:17-35 *)
Record bucket := mkB {
  b_num : Z; b_numX : Z; b_numY : Z; b_numZ : Z;
  b_length : num;
  b_domain : domain;
  b_next : list Z; b_first : list Z; b_last : list Z
}.

(** (int) (len / length) + k *)
Definition grid_count (len length : num) : outcome Z :=
  q <- to_int (len / length) ;; cint (q + 3)%Z.

(** Bucket::Bucket, src/bucket.cpp:10-22.  std::vector::resize with a negative int
    (converted to a huge size_t) throws std::length_error. *)
Definition newBucket (reMax : num) (d : domain) (particleSize : nat) : outcome bucket :=
  nx <- grid_count (xLength d) reMax ;;
  ny <- grid_count (yLength d) reMax ;;
  nz <- grid_count (zLength d) reMax ;;
  nxy <- cint (nx * ny)%Z ;;
  n <- cint (nxy * nz)%Z ;;
  if (n <? 0)%Z then Throw else
  Ok (mkB n nx ny nz reMax d (repeat 0%Z particleSize)
          (repeat 0%Z (Z.to_nat n)) (repeat 0%Z (Z.to_nat n))).

(** the isInDomain test, src/bucket.cpp:40-46 *)
Definition isInDomain (d : domain) (x : vec) : bool :=
  negb (nlt (vx x) (xMin d) || nlt (xMax d) (vx x)) &&
  negb (nlt (vy x) (yMin d) || nlt (yMax d) (vy x)) &&
  negb (nlt (vz x) (zMin d) || nlt (zMax d) (vz x)).

(** (int) ((x - xMin) / length) + 1, src/bucket.cpp:57 and neighbor_searcher.cpp:21 *)
Definition cell1 (x lo length : num) : outcome Z :=
  q <- to_int ((x - lo) / length) ;; cint (q + 1)%Z.

Definition cell (d : domain) (length : num) (x : vec) : outcome (Z * Z * Z) :=
  ix <- cell1 (vx x) (xMin d) length ;;
  iy <- cell1 (vy x) (yMin d) length ;;
  iz <- cell1 (vz x) (zMin d) length ;;
  Ok (ix, iy, iz).

(** ix + iy * numX + iz * numX * numY in int arithmetic, src/bucket.cpp:60 and
    neighbor_searcher.cpp:28 *)
Definition flat (numX numY : Z) (c : Z * Z * Z) : outcome Z :=
  let '(ix, iy, iz) := c in
  a <- cint (iy * numX)%Z ;;
  s <- cint (ix + a)%Z ;;
  b <- cint (iz * numX)%Z ;;
  b' <- cint (b * numY)%Z ;;
  cint (s + b')%Z.

(** body of the loop src/bucket.cpp:36-67 for the particle at index i; the state is
    the bucket's three vectors and the particles *)
Definition store1 (d : domain) (length : num) (numX numY : Z) (i : nat)
    (st : list Z * list Z * list Z * list particle) : outcome (list Z * list Z * list Z * list particle) :=
  let '(first, last, next, ps) := st in
  match nth_error ps i with
  | None => Undef OutOfBounds
  | Some p =>
    if is_type p Ghost then Ok st
    else if negb (isInDomain d (p_pos p)) then Ok (first, last, next, upd ps i (set_type p Ghost))
    else
      c <- cell d length (p_pos p) ;;
      ib <- flat numX numY c ;;
      l <- vget last ib ;;
      '(first', next') <- (if (l =? -1)%Z
                           then f <- vset first ib (p_id p) ;; Ok (f, next)
                           else nx <- vset next l (p_id p) ;; Ok (first, nx)) ;;
      last' <- vset last ib (p_id p) ;;
      Ok (first', last', next', ps)
  end.

(** Bucket::storeParticles, src/bucket.cpp:24-68.  The reset loops write indices
    0..num-1 of first and last, and 0..particles.size()-1 of next. *)
Definition storeParticles (b : bucket) (ps : list particle) : outcome (bucket * list particle) :=
  if negb ((b_num b <=? Z.of_nat (List.length (b_first b)))%Z &&
           (b_num b <=? Z.of_nat (List.length (b_last b)))%Z)
  then Undef OutOfBounds
  else if negb (Nat.leb (List.length ps) (List.length (b_next b))) then Undef OutOfBounds
  else
    let n := Z.to_nat (b_num b) in
    let first := repeat (-1)%Z n ++ skipn n (b_first b) in
    let last := repeat (-1)%Z n ++ skipn n (b_last b) in
    let next := repeat (-1)%Z (List.length ps) ++ skipn (List.length ps) (b_next b) in
    '(first', last', next', ps') <-
      foldM (store1 (b_domain b) (b_length b) (b_numX b) (b_numY b))
            (seq 0 (List.length ps)) (first, last, next, ps) ;;
    Ok (mkB (b_num b) (b_numX b) (b_numY b) (b_numZ b) (b_length b) (b_domain b) next' first' last', ps').

(** the while loop src/neighbor_searcher.cpp:31-40.  The chain visits indices of
    [next] only, so after length next + 1 rounds some index has repeated and, since
    [next] does not change, the real loop never ends: that is [Diverge]. *)
Fixpoint walk (fuel : nat) (re : num) (ps : list particle) (next : list Z) (pi : particle)
    (j : Z) (acc : list neighbor) : outcome (list neighbor) :=
  if (j =? -1)%Z then Ok acc
  else match fuel with
  | O => Diverge
  | S fuel' =>
    pj <- vget ps j ;;
    let dist := vnorm (vsub (p_pos pj) (p_pos pi)) in
    let acc' := if negb (j =? p_id pi)%Z && nlt dist re then acc ++ [mkNb j dist] else acc in
    j' <- vget next j ;;
    walk fuel' re ps next pi j' acc'
  end.

(** the 27 cells around a cell in the loop order of src/neighbor_searcher.cpp:25-27 *)
Definition three (i : Z) : list Z := [i - 1; i; i + 1]%Z.
Definition around (c : Z * Z * Z) : list (Z * Z * Z) :=
  let '(ix, iy, iz) := c in
  flat_map (fun jx => flat_map (fun jy => map (fun jz => (jx, jy, jz)) (three iz)) (three iy)) (three ix).

(** NeighborSearcher, src/neighbor_searcher.hpp:7-19 *)
Record searcher := mkNS { ns_re : num; ns_domain : domain; ns_bucket : bucket }.

(** NeighborSearcher::NeighborSearcher, src/neighbor_searcher.cpp:5-9 *)
Definition newSearcher (re : num) (d : domain) (particleSize : nat) : outcome searcher :=
  b <- newBucket re d particleSize ;; Ok (mkNS re d b).

(** loop body of NeighborSearcher::setNeighbors, src/neighbor_searcher.cpp:15-44 *)
Definition neighborsOf (ns : searcher) (b : bucket) (ps : list particle) (pi : particle) : outcome particle :=
  if is_type pi Ghost then Ok pi
  else
    c <- cell (ns_domain ns) (b_length b) (p_pos pi) ;;
    l <- foldM (fun c' acc =>
                  jb <- flat (b_numX b) (b_numY b) c' ;;
                  j <- vget (b_first b) jb ;;
                  walk (S (List.length (b_next b))) (ns_re ns) ps (b_next b) pi j acc)
               (around c) [] ;;
    Ok (set_nbrs pi l).

(** NeighborSearcher::setNeighbors, src/neighbor_searcher.cpp:11-45.  The parallel
    loop is run in index order here; Schedule.v proves that no other order or
    interleaving gives another result. *)
Definition setNeighbors (ns : searcher) (ps : list particle) : outcome (searcher * list particle) :=
  '(b, ps1) <- storeParticles (ns_bucket ns) ps ;;
  ps2 <- each (neighborsOf ns b) ps1 ;;
  Ok (mkNS (ns_re ns) (ns_domain ns) b, ps2).
End Neighbor.
