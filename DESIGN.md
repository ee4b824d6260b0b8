# Formal model of MPS-Basic in Rocq (Coq 8.16.1)

## 1. Approach

One executable Gallina model of the C++ code, written function by function, **polymorphic in the number type**: `Num`
(Num.v) is a class of the double operations the code uses (+ - * / sqrt abs < <= int->double, double->int).
It is instantiated twice:

* `Rnum` (NumR.v): exact real numbers. Used for the physical and geometric laws. These theorems say what the algorithm
  computes if there were no rounding.
* `F64` (NumF.v): IEEE-754 binary64, round to nearest even, built on Flocq. Used for memory safety, termination,
  symmetry, file contents, for what rounding leaves of the physical laws (PropDouble.v), and for the places where
  rounding breaks a property.

Structural properties (identity of particles, frame conditions, schedule independence, output schedule, ...) are proved
for **every** `Num`, hence for both.

Undefined behaviour (`Undef`: out of bounds, int overflow, bad cast, indeterminate value, null pointer), a failed
`assert`, `std::exit`, an uncaught exception and non-termination are distinct outcomes (`outcome` in Base.v), never a
default value. A loop without an evident bound runs on fuel and ends in `Diverge` when the fuel ends; theorems either
show that this does not happen or quantify over every amount of fuel.

Each property theorem stands in a file `Prop*.v` that contains nothing else, is closed by `exact`, has `Print
Assumptions` beneath, and an `Example` beside it that meets its hypotheses. The vocabulary of the statements is in
`Spec*.v`, written without the helpers of the model. `MANIFEST.json` maps properties to theorems.

## 2. What is modelled

| C++ | module | remarks |
|-----|--------|---------|
| bucket, neighbor_searcher | Neighbor.v | linked lists first/last/next, ints with overflow check |
| weight, refvalues, stages of mps.cpp | Physics.v | in-place updates in the order of the code |
| surface_detector, pressure_calculator/* | Pressure.v | matrix as triplets; the solver is a function argument |
| mps.cpp, mps_factory.cpp | Step.v | construction, stepForward |
| every `#pragma omp parallel for` | Schedule.v, Loops.v | an iteration is a program of single reads and writes |
| simulation.cpp, saver.cpp, util | Sim.v, Text.v | the clock is a function argument |
| messages of simulation.cpp, bucket.cpp, mps.cpp | Console.v | what is printed, in order; the texts |
| every other message; the options of main.cpp | Messages.v | the program of Program.v with the record of what it has printed, however it ends |
| particles_exporter.cpp | Files.v, Decimal.v | text and bytes |
| particles_loader/* | Files.v | streams with failbit and eofbit |
| loader.cpp, main.cpp | Loader.v, Program.v | a file system is a map from paths to files and directories |
| generator/* | Generator.v | including the dialogue on standard input |
| scripts/*.sh | Scripts.v | the text a conversion gives; what the runners do to the file system before the program starts |
| input/*/input.{prof,csv,vtu}, settings.yml | Shipped.v | written from /repo by tools/gen_shipped.py |

Every definition cites file and lines.

## 3. Simplifications and assumptions of the model

* Arithmetic: every double operation is rounded once to binary64 (no x87, no FMA contraction, no -ffast-math). There is
  one NaN; its sign and payload are not modelled. sqrt is correctly rounded. sin, cos, M_PI are arguments.
* The sparse solver (Eigen BiCGSTAB) is an argument: an arbitrary function that returns a vector or a failure. Where a
  theorem needs exact solutions this is a hypothesis on it; GaussR.v shows that such a solver exists.
* Memory is sequentially consistent for the parallel loops; every interleaving of single accesses is covered. Since
  the loops are shown free of conflicting accesses this covers the C++ memory model as well.
* C library: printf %g, strtod, operator<< and operator>> are modelled in Decimal.v and Files.v from the standard
  (correct rounding in both directions, "C" locale). Allocation never fails.
* csv.h and yaml-cpp are not part of /repo. Their parsers and the conversions of cells and scalars are arguments;
  what is assumed of csv.h is listed at the definition in Files.v. Trimming of blanks and '\r' is not modelled.
  For the shipped settings files (C67, C68) yaml-cpp is assumed to read the flat subset of YAML they use as Yaml.v does
  (`reads_plainly`); what it does with other texts is left open.
* File system: no symbolic links, permissions, full disks, other processes; paths without "." and "..".
  A trailing '/' in particlesPath is not treated.
* Console output: standard output and standard error are one sequence of messages. Where a time step ends in undefined
  behaviour or by an assertion, the record holds what was printed before that stage of the step. Not modelled: the usage
  text, and what the C++ library prints for a failed assertion or an uncaught exception. Of the command line the options
  -s and -o are modelled, each given at most once, in either order; argparse itself is not.
* `assert` is modelled by a flag (`dbg`): off for builds with NDEBUG.
* Shell scripts: bash with GNU or POSIX utilities in the "C" locale; read, head, tail, mkdir, rm and dirname do what their
  documentation says. Paths are absolute, where the scripts pass paths relative to the repository. The log files are
  there with their final text when the program starts. The outcome is that of the program; the scripts themselves end with
  the status of tee.
* The workflow calc-hydrostatic.yml (C85) starts at "Generate input", after the build. Its commands run under `bash -e`
  without pipefail. The log files exist, empty, while the program runs, and have their text afterwards. Drawing fails only
  if the VTU file is missing; drawing, upload and comment are otherwise not modelled.
* Not modelled: runner.ps1, CMake files, the other workflows, documentation. The unit tests are not run; C81 restates what they check.

## 4. Trusted base

* The Coq 8.16.1 kernel including its VM (`vm_compute`, `vm_cast_no_check`); `coqchk` rechecks all modules without it.
* Flocq (its definitions of binary64), the standard library.
* The reading of the C++ sources into the model: the code was not run.
* No axioms of our own. Axioms of the standard library, per theorem in `ASSUMPTIONS.md`:
  `ClassicalDedekindReals.sig_not_dec`, `ClassicalDedekindReals.sig_forall_dec`,
  `FunctionalExtensionality.functional_extensionality_dep` (all three come with Coq.Reals) and
  `Classical_Prop.classic` (comes with Flocq's lemmas). Theorems about every `Num` are closed under the global context
  unless they mention F64 or R.

## 5. Properties

"R": exact arithmetic. "F": binary64. "any": every `Num`.

| id | modelled by | how proved |
|----|-------------|------------|
| C01 | Neighbor at R | grid invariant of the linked lists; distance < re implies adjacent cells |
| C02, C05, C06 | Neighbor, any | the same invariant; the arrays are rebuilt from scratch |
| C03 | R and F | symmetry of the computed distance in both arithmetics |
| C04 | R and F | monotonicity of rounded subtraction and division (Flocq) |
| C07 | F | false: witness; a relative margin of 2^-19 within which the search is exact |
| C08, C09 | Physics at R; C08 also F | real analysis, finite sums over the lattice; rounding errors (Flocq) |
| C10 | R and F | permutation of sums, from C01; signs of rounded sums |
| C11-C14 | R, any | algebra on vectors; the two nested loops as a trace of pair collisions |
| C15-C18, C22, C23 | Step, any solver, R and F | invariants by induction over steps |
| C19-C21 | R; C20 also F | pair sums over a symmetric neighbour relation |
| C24, C25 | Explicit, R and F | direct; rounding errors; C25 false: the second update is void |
| C26-C28 | Implicit, PressurePoissonEquation | discrete maximum principle on finite sums; existence by elimination |
| C29, C30 | detectors, FreeSurface, factory | case analysis; C30 false with the explicit method |
| C31 | Loops, any | generic non-interference theorem over all interleavings |
| C32, C33 | Sim, any, R and F | induction over the loop; the shipped cases in F by computation of the clock |
| C34 | Text | injectivity of decimal text |
| C35, C54 | factory | trigonometry; field by field |
| C36, C37, C57 | Loader | case analysis on the file system; C57 false |
| C38-C41, C44, C45, C55, C60, C61 | Files, Decimal | printing and reading of doubles as integer arithmetic; C41, C45, C55, C60 false |
| C42, C43 | Files | decode after encode by blocks |
| C46 | Neighbor at F | false; no search with such a NaN completes |
| C47 | Generator | induction over the answers and the export list |
| C48 | Generator at R and F, Shipped | lattice of sites; complete computation in F |
| C49 | Sim | arithmetic of truncated division |
| C50 | Step, any | simulation relation |
| C51 | Step | all accesses in bounds (R); in F unless a NaN coordinate appears |
| C52, C53 | Step at R | the step equals the formulas of the method |
| C56, C58, C59 | Program | frame conditions over every outcome; C56 false |
| C62-C64 | Console, any, R and F | an observer of the run, segments of the log; C64 false, C63 false of the time step |
| C65, C66 | Step and Sim at R, refutation at F | every function commutes with the conversion of units |
| C67, C68 | Program at F, Shipped, Yaml | complete computation of the shipped files; all ends of step, report and files combined |
| C69, C70 | Step at R, refutations at F and R | every stage maps corresponding states to corresponding states; linear systems by uniqueness of the solution (maximum principle) |
| C71 | Step, any | every stage maps alike states to alike states, whatever it does not read |
| C72 | Sim, any; Program at F | C71 along the run; round trip of exactly printed values; false in general |
| C73 | Loader at F | every loader maps rows to newParticle in order |
| C74, C75 | Physics at R | double sums of antisymmetric terms; convexity; refutations by two particles |
| C76 | Scripts, Files, Shipped | words of a line; printed values are read alike by both loaders; computation of the shipped files |
| C77 | Scripts, Program | frame conditions of mkdir, rm and the program; C68 |
| C78 | Step at R | induction over steps with C53: the state is the first one moved rigidly |
| C79 | Program at F | every stage followed by its ways into undefined behaviour; C51, C46 and C04 for the steps |
| C80 | Program at F; steps for any Num | the same for each other ending; the links of the buckets lead to larger indices, so every walk ends |
| C81 | Physics, Neighbor, Files at R and F | per test: closed form, error bounds of both distance tests, computation for the inputs of the test |
| C82 | Messages, Program, Console at F | what is printed is erased; a rule for sequences of actions of which only the last may announce an error; the log of an unfinished run is that of the steps done (C63) and a rest |
| C83 | Step, Pressure at F and R | the lists of a member are those of the group, renumbered, so each loop computes the same sums in the same order; implicit: the entries of the solution for the members solve the system of the group, which has one solution (maximum principle) |
| C84 | Pressure, Step at R | maximum principle for the equations of the particles (C53): at a particle where the excess over the bound is largest the sum over the neighbours is not negative; attained: the same principle for the excess, above and below, in a closed group |
| C85 | Workflow (Generator, Scripts, Messages) at F | C48 and C68 on the disk the earlier steps leave; an output file changes only in a state that has counted past it; grep finds one match in the log of C63 |
| C86 | Neighbor, Step, Program at F | the stores before the first such particle are those of a list without one, so they complete (C04), and its cell is NaN cast to int; twins: 0 times infinity, followed through the prediction; with other velocities no coordinate stays finite, so the particle is outside or NaN |
| C87 | Physics at R; F for the refutation | raising (or multiplying) pressures and minima commutes with each loop; the minimum of raised numbers is the raised minimum, so the difference in the gradient is unchanged |

"False" means: the property as one would expect it does not hold of the code; the witness is a theorem `..._refuted`,
and what does hold is proved beside it.

## 6. Findings

Behaviour of the code that a user would not expect, each with a theorem:

* Rounding in the bucket index can hide a neighbour (C07). With a NaN coordinate no neighbour search completes
  (C46).
* The second explicit pressure update repeats the first (C25). With the explicit method no boundary condition is ever
  assigned, so the output shows none (C30).
* Without assertions, two particles in one place with equal velocity make a NaN that is converted to int in the same step; with different velocities the fluid ones among them silently become ghosts, also far from the walls (C86).
* An impulse that overflows makes the velocity of a wall NaN (C15).
* The shipped dam break case takes 2001 steps instead of 2000, and some outputs come one step late (C32, C33).
* File names beyond output_9999 sort out of order (C34).
* VTU files carry the number density under the name of the density; it is read back as density (C41).
* A truncated prof file and a CSV file without a column give particles of indeterminate values (C45, C55). So does a prof
  file with a bad character where a row begins; a bad last value is silently read as 0 (C45). A VTU file
  without positions or types loads as no particles or ghosts; the shipped input.vtu are such files (C60).
* A velocity printed as "inf" makes the prof file unreadable (C38). Printed times below 1e-300 cannot be reloaded from
  CSV and VTU (C39).
* A run into an output directory of an earlier run replaces its outputs (C56). After a refused run the copies left
  behind refuse the corrected run (C57).
* The progress report is undefined behaviour when it estimates more than 292 years (C64). It shows the time step with
  one digit (C63).
* Moving a problem to other coordinates can make two particles neighbours that were not, by rounding (C66).
* The result of a collision of three depends on the order of the particles in the file (C69). Surface detection by
  distribution depends on the orientation of the problem relative to the axes (C70).
* A run cannot in general be continued from its own prof output: the six digits kept can make two particles coincide
  (C72).
* Between fluids of different density the viscosity creates energy and momentum (C74). Pressure forces do not balance, and
  collisions change the angular momentum (C75).
* prof_to_csv.sh drops particles without a message: lines with tabs, a last line without newline, negative types (C76).
* runner.sh called from a repository under a path with a blank deletes files outside the repository. Two runs of
  safe_runner.sh within one second use one directory (C77). Both end with status 0 when the program fails.
* In the workflow that computes the hydrostatic case, the step that runs the program succeeds whatever the program does;
  a failed run is noticed by the missing picture. The time in the comment is empty if the clock is set back (C85).
* The generator dialogue repeats its question for ever at the end of standard input (C47).
* Three unit tests hold for the inputs they have and not for others of the same kind: the 3D reference values (fails for
  l0 = 0.008), the neighbour search (pairs at the radius), the VTU loader (coordinates that are not short decimals) (C81).

## 7. Seeded faults

`seeded/LOG.jsonl` records one line per wrong variant of a model definition: the edit, the claim it breaks, and the
theorems that failed with it.
