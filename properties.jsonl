{"id": "C01", "title": "Neighbour search is exact", "statement": "After NeighborSearcher::setNeighbors, the neighbour list of every non-Ghost particle i contains exactly the other non-Ghost particles j whose distance to i is strictly below the effective radius, each paired with that distance. No pair is missed because of the bucket grid.", "quantifier": "every domain box, every effective radius > 0, every number, type and position of particles (exact arithmetic)", "why_tests_cant": "the existing test samples 100 random points in one box; missing a pair only shows for particular cell alignments", "anchors": ["src/neighbor_searcher.cpp: NeighborSearcher::setNeighbors", "src/bucket.cpp: Bucket::Bucket, Bucket::storeParticles"]}
{"id": "C02", "title": "Neighbour lists have no duplicates, no self entry and no Ghost", "statement": "After setNeighbors no non-Ghost particle lists itself, lists the same particle twice, or lists a particle whose type is Ghost; every listed index is a valid particle index.", "quantifier": "every particle configuration for which the grid cells are computed without overflow, in any arithmetic including IEEE binary64", "why_tests_cant": "aliasing of grid cells or a cyclic chain only appears for particular grids and insertion orders", "anchors": ["src/neighbor_searcher.cpp: NeighborSearcher::setNeighbors", "src/bucket.cpp: Bucket::Bucket, Bucket::storeParticles"]}
{"id": "C03", "title": "Neighbourhood is symmetric", "statement": "If particle i lists j as neighbour at distance d then j lists i at the same distance d. Several loops (collision, minimum pressure) visit each pair from one side only and rely on this.", "quantifier": "every particle configuration, exact and IEEE binary64 arithmetic", "why_tests_cant": "depends on rounding of differences and on cell assignment for all position pairs", "anchors": ["src/neighbor_searcher.cpp: NeighborSearcher::setNeighbors", "src/mps.cpp: MPS::collision, MPS::setMinimumPressure"]}
{"id": "C04", "title": "Neighbour search is memory safe and terminates", "statement": "Constructing a NeighborSearcher for a domain and calling setNeighbors never indexes a vector out of range, never overflows an int and always finishes, when re > 0, the box is non-degenerate with a grid that fits in int, and the particle coordinates are numbers (not NaN).", "quantifier": "every such box, radius and particle set, exact and IEEE binary64 arithmetic", "why_tests_cant": "out-of-range accesses happen only for extreme positions exactly on the boundary or after rounding", "anchors": ["src/neighbor_searcher.cpp: NeighborSearcher::setNeighbors", "src/bucket.cpp: Bucket::Bucket, Bucket::storeParticles"]}
{"id": "C05", "title": "Particles outside the domain become Ghost, and nothing else changes", "statement": "setNeighbors turns exactly the non-Ghost particles lying outside the closed domain box into Ghost, never turns a Ghost back, and changes no other attribute of any particle except the neighbour lists of non-Ghost particles.", "quantifier": "every particle configuration and box, any arithmetic", "why_tests_cant": "a frame condition over all fields and all inputs", "anchors": ["src/bucket.cpp: Bucket::Bucket, Bucket::storeParticles", "src/neighbor_searcher.cpp: NeighborSearcher::setNeighbors"]}
{"id": "C06", "title": "Neighbour search does not depend on earlier calls", "statement": "The result of setNeighbors depends only on the current particles and the constructor arguments, not on how often or with which particles the same searcher object was used before, nor on the stale neighbour lists of non-Ghost particles.", "quantifier": "every history of previous calls", "why_tests_cant": "quantifies over all call histories of a reused object", "anchors": ["src/neighbor_searcher.cpp: NeighborSearcher::setNeighbors", "src/bucket.cpp: Bucket::Bucket, Bucket::storeParticles"]}
{"id": "C07", "title": "Neighbour search under IEEE rounding", "statement": "In binary64 arithmetic the neighbour list of i contains every other in-domain particle closer than re. (False of the code when rounding moves a particle one grid cell away; true for pairs whose per-axis cells are adjacent.)", "quantifier": "every binary64 configuration", "why_tests_cant": "the failing configurations have measure close to zero, random tests never hit them", "anchors": ["src/neighbor_searcher.cpp: NeighborSearcher::setNeighbors", "src/bucket.cpp: Bucket::Bucket, Bucket::storeParticles"]}
{"id": "C08", "title": "Weight function law", "statement": "weight(dis, re) is re/dis - 1 for 0 < dis < re, is 0 for dis >= re, is never negative, is strictly decreasing on (0, re), tends to 0 at re, and a call with dis <= 0 fails its assertion instead of returning a value. In doubles it is exactly 0 from re on, never 0 within re, never NaN, still (weakly) decreasing, and off by at most 2^-51 re/dis unless it overflows.", "quantifier": "all real distances and radii", "why_tests_cant": "the unit test checks three points", "anchors": ["src/weight.cpp: weight"]}
{"id": "C09", "title": "Reference values are the full-lattice values", "statement": "For 2 or 3 dimensions, 0 < l0 < re <= 5*l0, RefValues.n0 equals the weight sum over the whole infinite cubic lattice of spacing l0 (any box of offsets containing the +-4 box), n0 > 0 and l0^2 <= lambda < re^2. For re > 5*l0 n0 is strictly smaller than the lattice sum.", "quantifier": "all l0, re, both dimensions, all lattice boxes", "why_tests_cant": "tests check re = 1.5 l0 only", "anchors": ["src/refvalues.cpp: RefValues::RefValues"]}
{"id": "C10", "title": "Number density is the weight sum over all particles in range", "statement": "After the neighbour search, MPS's number density of each non-Ghost particle is the sum of weight(distance, re) over all other non-Ghost particles (re not larger than the search radius); a Ghost has number density 0. In particular it does not depend on the order of neighbours, and it is n0 for a particle whose surroundings are the full lattice. In doubles it is never negative nor NaN, over any number of steps, and positive exactly if some listed neighbour is nearer than re.", "quantifier": "all particle configurations", "why_tests_cant": "quantifies over all configurations", "anchors": ["src/mps.cpp: MPS::calNumberDensity"]}
{"id": "C11", "title": "Pairwise collision law", "statement": "When an approaching pair closer than collisionDistance is processed, the relative velocity along the line of centres is multiplied by -e (e = coefficientOfRestitution), tangential velocity is unchanged, a separating pair keeps its velocities, and in both cases the pair is pushed apart along the line of centres by exactly collisionDistance - distance, shared in inverse proportion to density.", "quantifier": "all positions, velocities, densities, restitution coefficients", "why_tests_cant": "an algebraic law over reals", "anchors": ["src/mps.cpp: MPS::collision", "src/particle.cpp: Particle::inverseDensity"]}
{"id": "C12", "title": "Collisions conserve momentum and centre of mass", "statement": "In a step in which only fluid particles collide, the collision stage leaves the density-weighted sums of velocity and of position over all particles unchanged, whatever the number and order of collisions.", "quantifier": "all configurations and neighbour lists", "why_tests_cant": "depends on arbitrarily long chains of collisions", "anchors": ["src/mps.cpp: MPS::collision"]}
{"id": "C13", "title": "Collisions never create kinetic energy", "statement": "For 0 <= e <= 1 and walls at rest, the density-weighted kinetic energy of the fluid does not increase in the collision stage.", "quantifier": "all configurations, all collision sequences", "why_tests_cant": "inequality over unbounded collision chains", "anchors": ["src/mps.cpp: MPS::collision"]}
{"id": "C14", "title": "Each fluid pair collides at most once per step, walls are immovable in collisions", "statement": "The collision stage processes each unordered fluid-fluid pair at most once and never changes position or velocity of a particle that is not Fluid.", "quantifier": "all configurations", "why_tests_cant": "over all neighbour lists", "anchors": ["src/mps.cpp: MPS::collision"]}
{"id": "C15", "title": "Non-fluid particles never move", "statement": "Over any number of time steps the position and velocity of every Wall, DummyWall and Ghost particle (and of any particle with an unrecognised type code) stay what they were when it entered that state. In doubles this holds of every coordinate that does not turn NaN; one can.", "quantifier": "all inputs, all step counts, both pressure methods, any solver", "why_tests_cant": "an invariant over unbounded histories", "anchors": ["src/mps.cpp: MPS::stepForward, moveParticle, collision, moveParticleUsingPressureGradient"]}
{"id": "C16", "title": "Particles keep their identity", "statement": "Over any number of time steps the number of particles, each particle's id (equal to its index), density and fluidType never change, and a particle's type can only change from its initial type to Ghost, permanently.", "quantifier": "all inputs, all step counts, both pressure methods, any arithmetic", "why_tests_cant": "an invariant over unbounded histories", "anchors": ["src/mps.cpp: MPS::stepForward", "src/particles.cpp: Particles::add"]}
{"id": "C17", "title": "Acceleration does not leak between steps", "statement": "After every completed time step every particle's acceleration is zero, so the prediction stage moves a fluid particle with exactly gravity plus its viscous term: v' = v + (g + visc) dt, x' = x + v' dt.", "quantifier": "all inputs and step counts", "why_tests_cant": "an invariant over histories", "anchors": ["src/mps.cpp: MPS::calGravity, moveParticle, moveParticleUsingPressureGradient"]}
{"id": "C18", "title": "Free fall of an isolated particle", "statement": "A fluid particle with no other particle in range that stays in the domain follows v_n = v_0 + n g dt and x_n = x_0 + n v_0 dt + n(n+1)/2 g dt^2 after n steps, for either pressure method.", "quantifier": "all start states, gravity vectors, step counts", "why_tests_cant": "induction over the number of steps", "anchors": ["src/mps.cpp: MPS::stepForward"]}
{"id": "C19", "title": "Viscosity conserves momentum and vanishes for uniform flow", "statement": "The viscous acceleration is zero for every particle when all velocities are equal, and in an all-fluid configuration the viscous accelerations of all particles sum to zero.", "quantifier": "all configurations", "why_tests_cant": "needs the pairwise antisymmetry for every configuration", "anchors": ["src/mps.cpp: MPS::calViscosity"]}
{"id": "C20", "title": "Minimum pressure is the true minimum over interacting neighbours", "statement": "After setMinimumPressure a Fluid or Wall particle's minimum pressure is the least among its own pressure and the pressures of all its non-Ghost, non-DummyWall neighbours closer than re, although each pair is visited from one side only; a Ghost or DummyWall keeps its own pressure. The same in doubles, if no pressure is NaN.", "quantifier": "all configurations with symmetric neighbour lists", "why_tests_cant": "relies on global symmetry of the pair visiting order", "anchors": ["src/mps.cpp: MPS::setMinimumPressure"]}
{"id": "C21", "title": "Pressure gradient force is purely repulsive", "statement": "Every neighbour's contribution to the pressure acceleration of a fluid particle points away from that neighbour, and the whole contribution is zero when all interacting pressures are equal.", "quantifier": "all configurations", "why_tests_cant": "inequality for all configurations", "anchors": ["src/mps.cpp: MPS::calPressureGradient, setMinimumPressure"]}
{"id": "C22", "title": "Courant number is the maximum over fluid particles, and exceeding the limit does not stop the run", "statement": "After a step the reported Courant number is 0 if there is no fluid and otherwise the largest |v| dt / l0 over fluid particles; exceeding cflCondition only prints a message and never changes the state or ends the run. In doubles it is the maximum over the fluid particles whose value is not NaN; the others are passed over.", "quantifier": "all states", "why_tests_cant": "max over unbounded sets, all states", "anchors": ["src/mps.cpp: MPS::calCourant", "src/simulation.cpp: Simulation::run"]}
{"id": "C23", "title": "A planar problem stays planar", "statement": "If all particles have z position and z velocity 0 and gravity has no z component then after any number of steps all particles still have z position and z velocity exactly 0 (in doubles: 0 or NaN).", "quantifier": "all inputs, all step counts, both pressure methods", "why_tests_cant": "an invariant over histories", "anchors": ["src/mps.cpp: MPS::stepForward"]}
{"id": "C24", "title": "Explicit pressure law", "statement": "The explicit method returns one pressure per particle: c^2 rho (n - n0)/n0 if n > n0, otherwise 0, and 0 for Ghost; it is never negative for non-negative density and is monotone in the number density. In doubles, for finite positive data, it is never negative nor NaN, monotone, and accurate to a relative 2^-50 for data between 2^-100 and 2^100.", "quantifier": "all particle states", "why_tests_cant": "over all states", "anchors": ["src/pressure_calculator/explicit.cpp: Explicit::calc"]}
{"id": "C25", "title": "The second explicit pressure update of a step refreshes the pressure", "statement": "With the explicit method, the pressures written at the end of a step reflect the particle positions after the pressure correction. (False of the code: the second calculation reuses the old number densities and changes nothing.)", "quantifier": "all inputs", "why_tests_cant": "equality of two computations for all states", "anchors": ["src/mps.cpp: MPS::stepForward (lines 54-60)"]}
{"id": "C26", "title": "Implicit pressures are never negative", "statement": "Whatever the linear solver returns, every pressure handed to the particles by the implicit method is >= 0, and there is exactly one per particle; a reported solver failure ends the program with a non-zero exit code.", "quantifier": "every solver result, all particle states", "why_tests_cant": "the solver is iterative and its output unbounded", "anchors": ["src/pressure_calculator/implicit.cpp: Implicit::calc, removeNegativePressure", "src/pressure_calculator/pressure_poisson_equation.cpp: solve"]}
{"id": "C27", "title": "Pressure is zero off the interior", "statement": "For every exact solution of the assembled system, free-surface, DummyWall and Ghost particles have pressure exactly 0.", "quantifier": "all particle states, all exact solutions", "why_tests_cant": "over all solutions", "anchors": ["src/pressure_calculator/pressure_poisson_equation.cpp", "src/pressure_calculator/dirichlet_boundary_condition_generator/free_surface.cpp"]}
{"id": "C28", "title": "The pressure Poisson matrix is a well-posed M-matrix", "statement": "The assembled matrix has identity rows for Dirichlet particles; in every other row the off-diagonal entries are <= 0 and the row sum is compressibility/dt^2. For positive compressibility the system has at most one solution, and non-negative source terms force a non-negative solution.", "quantifier": "all particle states, all parameters", "why_tests_cant": "linear algebra over unbounded dimension", "anchors": ["src/pressure_calculator/pressure_poisson_equation.cpp: setMatrixTriplets, setSourceTerm"]}
{"id": "C29", "title": "Free-surface classification", "statement": "The implicit method marks Ghost and DummyWall as Ignored and every other particle as FreeSurface or Inner: FreeSurface iff numberDensity < threshold*n0 and, when the distribution test is on, the neighbours are absent or their summed offset exceeds the threshold distance along some axis. Switching the distribution test on never adds surface particles.", "quantifier": "all particle states, both detectors", "why_tests_cant": "over all states", "anchors": ["src/surface_detector/distribution.cpp", "src/surface_detector/number_density.cpp", "src/pressure_calculator/dirichlet_boundary_condition_generator/free_surface.cpp"]}
{"id": "C30", "title": "Boundary conditions are reported with the explicit method", "statement": "After a step the exported boundary condition tells surface from inner particles. (False with the explicit method: it never assigns a boundary condition, so every particle stays Ignored; and the surface detector handed to MPS is null.)", "quantifier": "all inputs, all step counts", "why_tests_cant": "invariant over histories", "anchors": ["src/mps_factory.cpp: MPSFactory::create", "src/mps.cpp: MPS::stepForward, setBoundaryCondition"]}
{"id": "C31", "title": "Parallel loops give the sequential result under every schedule", "statement": "Every `omp parallel for` loop is free of data races, and any interleaving of its iterations' memory accesses ends in the same particle state as running the iterations one after the other in index order.", "quantifier": "every thread count, schedule and interleaving, any arithmetic", "why_tests_cant": "the number of interleavings is astronomically large and races are not reproducible", "anchors": ["src/mps.cpp: all omp loops", "src/neighbor_searcher.cpp: NeighborSearcher::setNeighbors", "src/bucket.cpp: Bucket::Bucket, Bucket::storeParticles", "src/pressure_calculator/*.cpp"]}
{"id": "C32", "title": "The time loop terminates with the expected number of steps", "statement": "With dt > 0 Simulation::run performs exactly ceil((endTime-startTime)/dt) steps (0 if endTime <= startTime), passes through the times startTime + k dt, and stops at the first time >= endTime. With dt <= 0 and startTime < endTime it never completes. In binary64, with finite times and dt > 0, it also never completes once time + dt rounds back to time below endTime, and ends otherwise; rounding can cost a step (the shipped dam-break case takes 2001 steps, not 2000).", "quantifier": "all start times, end times, steps", "why_tests_cant": "termination for every parameter", "anchors": ["src/simulation.cpp: Simulation::run"]}
{"id": "C33", "title": "Output schedule", "statement": "The initial state is saved as file 0 before the first step; at most one file is written per step; file k (k >= 1) is written after the first step whose elapsed time is at least k*outputPeriod and which comes after file k-1. If outputPeriod >= dt > 0, file k is written at the first step with elapsed time >= k*outputPeriod, less than one dt late.", "quantifier": "all periods, steps, run lengths", "why_tests_cant": "over unbounded run lengths", "anchors": ["src/simulation.cpp: Simulation::run, saveCondition", "src/saver.cpp: Saver::save"]}
{"id": "C34", "title": "Output file names", "statement": "Distinct outputs of a run have distinct file names, so no output overwrites another one of the same run; for fewer than 10000 outputs the alphabetical order of names is the chronological order (it is not beyond that).", "quantifier": "all file numbers", "why_tests_cant": "over all numbers", "anchors": ["src/saver.cpp: Saver::save"]}
{"id": "C35", "title": "Gravity from norm and angle", "statement": "With xyz-input false, the gravity vector lies in the XY plane, has length |gravity-norm| and encloses gravity-angle degrees with -Y counter-clockwise; angle 0 gives (0, -norm, 0). With xyz-input true it is the given vector.", "quantifier": "all norms and angles", "why_tests_cant": "trigonometric identity for all reals", "anchors": ["src/mps_factory.cpp: MPSFactory::create"]}
{"id": "C36", "title": "Derived settings are consistent", "statement": "The loaded settings have reMax >= each of the three effective radii (and equal to one of them), lengths equal to max - min, and distances equal to ratio times particleDistance, so that every interaction radius is covered by the neighbour search radius.", "quantifier": "all setting values", "why_tests_cant": "for all reals; the neighbour search silently loses pairs otherwise", "anchors": ["src/loader.cpp: Loader::loadSettingYaml", "src/mps.cpp: MPS::MPS"]}
{"id": "C37", "title": "Loading never overwrites files and rejects unsupported input", "statement": "Loader::load leaves every file that already exists untouched: it exits with code -1 if a copy target exists in the output directory; an unknown particle file extension or an unknown pressure method exits with -1 before any time step.", "quantifier": "all file systems, settings and paths", "why_tests_cant": "over all file-system states", "anchors": ["src/loader.cpp: Loader::load, copyInputFileToOutputDirectory, getParticlesLoader", "src/mps_factory.cpp"]}
{"id": "C38", "title": "Prof export/import round trip", "statement": "Loading a .prof file written by toProf returns the time and, in order, each particle's type, position and velocity as printed; ids are 0..n-1; density is the default density and fluidType is 0 (both are lost).", "quantifier": "all particle lists and times", "why_tests_cant": "parser correctness over all files", "anchors": ["src/particles_exporter.cpp: toProf", "src/particles_loader/prof.cpp: Prof::load"]}
{"id": "C39", "title": "CSV export/import round trip", "statement": "Loading a .csv file written by toCsv returns the time and, in order, each particle's type, fluidType, position and velocity as printed, with default density. The column order of a CSV input does not matter; a missing density or a negative one means the default density; the particle count line is ignored.", "quantifier": "all particle lists, column orders", "why_tests_cant": "parser correctness over all files", "anchors": ["src/particles_exporter.cpp: toCsv", "src/particles_loader/csv.cpp: Csv::load"]}
{"id": "C40", "title": "VTU (ascii) export/import round trip", "statement": "Loading an ascii .vtu file written by toVtu returns time, positions, velocities, types and fluid types as printed.", "quantifier": "all particle lists with printable numbers", "why_tests_cant": "parser correctness over all files", "anchors": ["src/particles_exporter.cpp: toVtuAscii", "src/particles_loader/vtu.cpp: Vtu::load"]}
{"id": "C41", "title": "VTU import uses the default density for files without a density array", "statement": "Loading a file written by toVtu gives each particle the default density, because no density array is exported. (False of the code: the \"Number Density\" array is mistaken for the density.)", "quantifier": "all particle lists", "why_tests_cant": "the existing VTU test does not look at the density", "anchors": ["src/particles_loader/vtu.cpp: Vtu::load (lines 102-112)", "src/particles_exporter.cpp: toVtuAscii (lines 120-131)"]}
{"id": "C42", "title": "Binary VTU layout is self-consistent", "statement": "In a binary .vtu every DataArray's offset attribute is the position in the appended data of its 8-byte length, which equals the byte size of the payload that follows; a reader that follows the offsets recovers every position, velocity, pressure, number density, type, boundary condition, fluid type, connectivity, offset and the time bit for bit.", "quantifier": "all particle lists", "why_tests_cant": "byte-level contract for every particle count and value", "anchors": ["src/particles_exporter.cpp: toVtuBinary"]}
{"id": "C43", "title": "Binary VTU files are refused as input", "statement": "Vtu::load exits with code -1 on every file written by toVtu in binary mode, whatever bytes the data contains.", "quantifier": "all particle lists", "why_tests_cant": "arbitrary payload bytes", "anchors": ["src/particles_loader/vtu.cpp: Vtu::load (lines 23-30)"]}
{"id": "C44", "title": "Text export is a fixed point", "statement": "Exporting, loading and exporting again writes the same text: the 6-digit decimal of every value survives the round trip through binary64.", "quantifier": "all normal binary64 values", "why_tests_cant": "depends on decimal/binary rounding for every double", "anchors": ["src/particles_exporter.cpp: toProf, toCsv, toVtuAscii", "src/particles_loader/prof.cpp"]}
{"id": "C45", "title": "A truncated prof file is detected", "statement": "A prof file with fewer rows than announced is rejected. (False of the code: the missing particles are created from indeterminate values.)", "quantifier": "all files", "why_tests_cant": "over all malformed files", "anchors": ["src/particles_loader/prof.cpp: Prof::load"]}
{"id": "C46", "title": "A NaN coordinate is contained", "statement": "A particle whose coordinate became NaN is treated as out of the domain. (False of the code in binary64: it passes the domain test and the conversion of NaN to a cell index is undefined behaviour.)", "quantifier": "all particle sets containing a NaN", "why_tests_cant": "undefined behaviour cannot be observed reliably by a test", "anchors": ["src/bucket.cpp: Bucket::Bucket, Bucket::storeParticles"]}
{"id": "C47", "title": "Generators ask before overwriting", "statement": "The input generators write no file unless all extensions are valid, and if a target file already exists they overwrite only after the user answers y or Y; n or N leaves every file untouched; other answers repeat the question.", "quantifier": "all file systems and answer sequences", "why_tests_cant": "over all answer sequences", "anchors": ["generator/generator_src/generator_dialogue.cpp"]}
{"id": "C48", "title": "Generated inputs are well formed", "statement": "The dam break generator emits 627 particles and the hydrostatic generator 1752, matching the checked-in inputs, with ids 0..n-1, no Ghost, no two particles at one place, and every particle inside the domain given in the settings file.", "quantifier": "the complete (input free) generator run in binary64", "why_tests_cant": "the floating-point region tests decide each particle's type", "anchors": ["generator/generate_dambreak.cpp", "generator/generate_hydrostatic.cpp", "input/*/input.prof"]}
{"id": "C49", "title": "Duration formatting", "statement": "The h/m/s text of a duration satisfies 3600 h + 60 m + s = whole seconds of the duration with |m|, |s| < 60 and all of one sign.", "quantifier": "all durations including negative estimates", "why_tests_cant": "over all durations", "anchors": ["src/simulation.hpp: calHourMinuteSecond"]}
{"id": "C50", "title": "Unrecognised particle types behave like walls", "statement": "A particle whose type code is not 0..3 takes part in a time step exactly as if its type were Wall.", "quantifier": "all type codes and configurations", "why_tests_cant": "over all codes", "anchors": ["src/particle.hpp: ParticleType", "src/mps.cpp", "src/particles_loader/*.cpp (static_cast)"]}
{"id": "C51", "title": "Time steps complete and stay in bounds", "statement": "From any state reachable by the program's own construction, a time step completes, or stops at an assert (only in builds with asserts), or exits with code -1 after a failed linear solve (only with the implicit method); it never reads or writes out of bounds, never casts an unrepresentable double and never loops for ever, unless a coordinate has become NaN. Without asserts and solver failures, runs of every length complete.", "quantifier": "all states, settings, solvers and numbers of steps", "why_tests_cant": "bounds and overflow conditions over all configurations and all run lengths", "anchors": ["src/mps.cpp: MPS::stepForward", "src/neighbor_searcher.cpp", "src/bucket.cpp", "src/pressure_calculator/*.cpp"]}
{"id": "C52", "title": "Pressure gradient and correction formulas", "statement": "In the correction stage a fluid particle gets the acceleration -(dim/(n0 rho_i)) sum over the other interacting particles (DummyWall excluded) of (p_j - pmin_i) w(r) (r_j - r_i)/r^2, where pmin_i is the least pressure among the particle and those it interacts with; its velocity grows by dt a and its position by dt^2 a, and the acceleration is cleared. Other particles stay.", "quantifier": "all particle sets and pressures, exact arithmetic", "why_tests_cant": "formula identity over all configurations", "anchors": ["src/mps.cpp: calPressureGradient, setMinimumPressure, moveParticleUsingPressureGradient"]}
{"id": "C53", "title": "A time step is the documented MPS algorithm", "statement": "One completed stepForward transforms the particles by, in this order: sweeping particles outside the domain to Ghost; prediction with gravity and the MPS Laplacian of velocity; sweep; collision of every close pair once (restitution, momentum, separation to the collision distance); sweep; number density; pressures (explicit law, or the solution of the pressure Poisson equation, negative values set to zero, zero on free surface particles); correction by the pressure gradient.", "quantifier": "all ready simulators and completed steps, exact arithmetic and exact linear solver", "why_tests_cant": "stage formulas and their order over all states", "anchors": ["src/mps.cpp: MPS::stepForward", "src/pressure_calculator/*.cpp"]}
{"id": "C54", "title": "The factory passes every setting to its place", "statement": "For usable settings and method Implicit or Explicit MPSFactory::create succeeds; searcher, three reference values (lattice sums for their own radii), surface detector, pressure calculator and gravity are built from the settings meant for them. Any other method exits with -1.", "quantifier": "all usable settings and particle lists", "why_tests_cant": "swapped radii or thresholds give plausible runs", "anchors": ["src/mps_factory.cpp: MPSFactory::create", "src/mps.cpp: MPS::MPS", "src/refvalues.cpp"]}
{"id": "C55", "title": "A CSV file without a needed column is rejected", "statement": "Loading a CSV file whose header lacks one of type, x, y, z, vx, vy, vz fails with an error. (False of the code: io::ignore_missing_column leaves the variables indeterminate and particles are made from them.)", "quantifier": "all CSV files", "why_tests_cant": "over all headers and files", "anchors": ["src/particles_loader/csv.cpp: Csv::load (lines 23-35)"]}
{"id": "C56", "title": "A run never destroys an existing file", "statement": "Whatever the outcome of a run, every file that existed before still has its contents. (False of the code: the saver overwrites output files of an earlier run in the same directory. True of everything else: only files named like an output of this program, inside the output directory, can change.)", "quantifier": "all file systems, settings, particle files, solvers and run lengths", "why_tests_cant": "over all prior contents of the file system", "anchors": ["src/saver.cpp: Saver::save", "src/particles_exporter.cpp", "src/loader.cpp: copyInputFileToOutputDirectory", "src/main.cpp"]}
{"id": "C57", "title": "A refused input can be corrected", "statement": "When a run stops because of a mistake in the settings, correcting the mistake and starting again works as in a clean directory. (False of the code: the input files are copied before the pressure method is checked, and the copies left behind make the corrected run exit as well.)", "quantifier": "all settings and file systems", "why_tests_cant": "needs sequences of two runs over all inputs", "anchors": ["src/loader.cpp: Loader::load, copyInputFileToOutputDirectory", "src/mps_factory.cpp", "src/main.cpp"]}
{"id": "C58", "title": "A run changes nothing outside its output directory", "statement": "Whatever the outcome, a run adds entries to its output directory and writes output files in the subdirectories prof, csv and vtu of it; everything else is as before, and no directory disappears.", "quantifier": "all file systems, inputs and outcomes", "why_tests_cant": "frame property over all file systems and all ways to fail", "anchors": ["src/main.cpp", "src/loader.cpp", "src/saver.cpp", "src/simulation.cpp"]}
{"id": "C59", "title": "A completed run has stored all its outputs, and they can be reloaded", "statement": "When the program ends normally, it has simulated exactly what the settings and the particle file say, both inputs stand in the output directory, and for each scheduled output the three files hold what the exporters write; each prof output with finite values can be given to the loader and yields the printed state. The program ends normally whenever the simulation does and the output directory can take the files.", "quantifier": "all file systems, inputs, solvers and run lengths", "why_tests_cant": "end to end over all inputs", "anchors": ["src/main.cpp", "src/loader.cpp", "src/saver.cpp", "src/simulation.cpp", "src/particles_exporter.cpp", "src/particles_loader/prof.cpp"]}
{"id": "C60", "title": "A VTU file without positions or types is rejected", "statement": "Loading a VTU file that lacks the array of positions or of particle types fails with an error. (False of the code: it yields no particles, or only ghosts. The VTU files shipped in input/ are of that kind: the array names are in lower case.)", "quantifier": "all VTU files", "why_tests_cant": "over all files; the shipped VTU files are used by no test", "anchors": ["src/particles_loader/vtu.cpp: Vtu::load (lines 31-127)", "input/*/input.vtu"]}
{"id": "C61", "title": "The output files show the particles", "statement": "A VTU output is a well formed XML document with the arrays VTK expects: positions, the seven point data arrays, one vertex cell per particle (connectivity 0..n-1, offsets 1..n, type 1) and the time; in ascii, line i of an array is a numeral of the value of particle i, rounded to six digits. A prof or CSV output has the time, the number of particles and one line per particle with its values in the order of the header.", "quantifier": "all particle lists (any size, also with infinite or NaN values), times and byte orders", "why_tests_cant": "over all particle lists; no test reads the files with an XML reader", "anchors": ["src/particles_exporter.cpp: toVtuAscii (lines 68-180), toVtuBinary (lines 181-344), toProf, toCsv, dataArrayBegin"]}
{"id": "C62", "title": "Every particle that leaves the domain is reported once", "statement": "During a run, for each particle that becomes a ghost because it left the domain exactly one warning is printed, with its index and its final position, which is outside; no warning is printed about any other particle, nor about one that was a ghost from the start. Printing has no influence on the run.", "quantifier": "all simulations, solvers, clocks and run lengths; exact arithmetic and binary64", "why_tests_cant": "counts messages over whole runs of any length, over three searches per step", "anchors": ["src/bucket.cpp: Bucket::storeParticles (lines 48-53)", "src/mps.cpp: MPS::stepForward", "src/simulation.cpp: Simulation::run"]}
{"id": "C63", "title": "The progress report shows the state of the run", "statement": "A completed run prints the start line, then for every step the warnings, the Courant number if it is too large, and one report, and then the end line with the total time. The report of step k shows k, dt, the time after k steps, the end time, the elapsed and estimated remaining time, the mean and last duration of a step, the number of files written before the step and the Courant number of the new state; fixed decimals are correctly rounded. (False of the time step: it is printed with one digit, so steps that differ by half look alike.)", "quantifier": "all simulations, clocks and run lengths; all finite doubles", "why_tests_cant": "relates every line of the output to the state of an arbitrary run", "anchors": ["src/simulation.cpp: Simulation::timeStepReport (lines 65-103), startSimulation, endSimulation", "src/mps.cpp: MPS::calCourant"]}
{"id": "C64", "title": "The progress report cannot stop a run", "statement": "Whatever the clock shows, printing the progress report has no effect but the printed text. (False of the code: the estimated total time is converted to an int64 number of nanoseconds, which is undefined behaviour from 2^63 ns, some 292 years, on. A run to 10^6 s in steps of 0.001 s whose first step takes ten seconds is enough. Below that bound the report is harmless.)", "quantifier": "all simulations and clock readings", "why_tests_cant": "depends on wall clock time and on end times no test uses", "anchors": ["src/simulation.cpp: Simulation::timeStepReport (line 80)"]}
{"id": "C65", "title": "The result does not depend on the units of measurement", "statement": "Writing the same problem down in other units of length, time and mass (particles, settings and gravity converted by their physical dimensions) gives the same simulation in the other units: the same outcome of every step and of the whole run, the same neighbours, number densities, surface classification and files, and converted positions, velocities, accelerations, pressures and times, provided the linear solver respects units (exact elimination does). In particular no formula mixes dimensions and no constant of the code carries a hidden unit.", "quantifier": "all states, settings, units, origins, run lengths and outcomes; exact arithmetic", "why_tests_cant": "a dimensional error in a formula is consistent within one set of units, which is all that tests use", "anchors": ["src/mps.cpp", "src/neighbor_searcher.cpp", "src/bucket.cpp", "src/refvalues.cpp", "src/weight.cpp", "src/pressure_calculator/", "src/surface_detector/", "src/mps_factory.cpp", "src/simulation.cpp"]}
{"id": "C66", "title": "The result does not depend on where and when the problem is placed", "statement": "Moving all particles and the domain by a vector and the clock by an offset moves the result of every step and run by the same amounts and changes nothing else, whatever the solver. (False in binary64: rounding of the moved coordinates can make particles neighbours that were not.)", "quantifier": "all states, shifts, solvers, run lengths and outcomes; exact arithmetic; binary64 refuted", "why_tests_cant": "over all shifts; the origin of the shipped cases is one fixed point", "anchors": ["src/bucket.cpp: Bucket::storeParticles", "src/neighbor_searcher.cpp", "src/mps.cpp", "src/simulation.cpp"]}
{"id": "C67", "title": "The shipped cases load as intended", "statement": "Given the files of input/dambreak or input/hydrostatic and an empty output directory, the program loads exactly the settings the file shows (as correctly rounded decimals, the radii as multiples of the particle distance) and the particles of the case: those of the generator, none outside the domain and no two closer than the particle distance up to rounding. The simulator is constructed.", "quantifier": "all directories, file systems around the files, build types and readers that understand the flat YAML of the files", "why_tests_cant": "the shipped settings are loaded by no test; the comparison is over all particle pairs", "anchors": ["input/dambreak/", "input/hydrostatic/", "src/loader.cpp: Loader::loadSettingYaml (lines 72-145)", "src/mps_factory.cpp"]}
{"id": "C68", "title": "A run can end in no unforeseen way", "statement": "For the shipped cases with a clock that shows less than 78 hours, the program ends with all its steps done and all its outputs written (2001 steps and 51 outputs for the dam break, 5000 and 101 for the hydrostatic case), or with exit status -1 after a failure of the linear solver, or with a failed assertion in a debug build, or with the conversion of a coordinate that has become NaN to int (C86). There is no overflow, access out of bounds, failing conversion or endless loop, and writing the files adds no further ends. The same holds for every case in which the report can be printed.", "quantifier": "all solvers, clocks, directories, fuel; all simulations with sound state; binary64", "why_tests_cant": "over every solver answer and every one of thousands of steps", "anchors": ["src/main.cpp", "src/simulation.cpp", "src/mps.cpp", "src/saver.cpp", "input/dambreak/", "input/hydrostatic/"]}
{"id": "C69", "title": "Numbering and the choice of axes are immaterial", "statement": "Renumbering the particles, mirroring the problem or turning it by right angles, with domain and gravity, renumbers, mirrors or turns the result of every step and run and changes nothing else: positions, velocities, types, number densities, pressures and the Courant number correspond. This holds as long as no two particles are at one place and no Fluid particle collides with two others in a step, for any exact solvers. (False without the latter: in a row of three, the speed given to the last one depends on the order of the particles in the file.)", "quantifier": "all states, settings, permutations, axis-preserving motions, exact solvers and run lengths; exact arithmetic; multiple collisions refuted in binary64", "why_tests_cant": "over all permutations and motions; an asymmetric treatment of i and j or of x and y is consistent within one numbering", "anchors": ["src/mps.cpp: MPS::collision", "src/mps.cpp: MPS::stepForward", "src/neighbor_searcher.cpp", "src/pressure_calculator/", "src/surface_detector/"]}
{"id": "C70", "title": "Orientation is immaterial", "statement": "The same for every rigid motion of space, if the free surface is detected by the number density or the method is explicit, and the same particles leave the domain. (False of surface detection by distribution: it compares the components of the summed offsets with the threshold one by one, so a particle can be at the surface in one orientation and inside in another.)", "quantifier": "all states, settings, rigid motions, exact solvers and run lengths; exact arithmetic", "why_tests_cant": "over all rotations; the shipped cases are aligned with the axes", "anchors": ["src/surface_detector/distribution.cpp", "src/mps.cpp: MPS::stepForward", "src/pressure_calculator/"]}
{"id": "C71", "title": "A step depends only on what defines the state", "statement": "Two simulators with the same settings whose particles have equal number, type, position, velocity and density do the same: a step has the same outcome, and the same accelerations, pressures, number densities, minimum pressures, neighbours and Courant number, whatever pressures, number densities, neighbour lists and searcher contents were left over before. Nothing else survives a step.", "quantifier": "all states, leftovers, settings, solvers, outcomes and numbers of steps; every arithmetic", "why_tests_cant": "a stale value that is read is the same in every run of a test", "anchors": ["src/mps.cpp: MPS::stepForward", "src/particle.hpp", "src/neighbor_searcher.cpp", "src/pressure_calculator/"]}
{"id": "C72", "title": "A run can be continued from an output", "statement": "A run started at the time of an output, from its particles, reaches the same end time in the same state, with all steps together as many as in the first run, and passes only through states of the first run. For the whole program with a prof output copied over the input file, if time, positions and velocities were printed without loss. (False otherwise: the six digits printed can put two particles in one place, so that the continued run stops at an assertion, and continued runs end in other states.)", "quantifier": "all input files, settings, solvers, clocks, outputs and output directories; resumption in every arithmetic, whole program and refutations in binary64", "why_tests_cant": "the comparison is between two whole runs, for every output of every run", "anchors": ["src/simulation.cpp: Simulation::run", "src/saver.cpp", "src/particles_exporter.cpp: ParticlesExporter::toProf", "src/particles_loader/prof.cpp", "src/loader.cpp", "src/mps_factory.cpp"]}
{"id": "C73", "title": "Every input file gives a sound simulator", "statement": "Whatever the input file, the particles loaded are freshly constructed and numbered 0, 1, ... in order, so every completed run of the program is one of a sound simulator, all its outputs are states of that run, and everything proved of sound simulators holds of them.", "quantifier": "all files, formats, cell and number readers, build types", "why_tests_cant": "over all files that load, including those a test would not write", "anchors": ["src/particles_loader/csv.cpp", "src/particles_loader/prof.cpp", "src/particles_loader/vtu.cpp", "src/loader.cpp", "src/main.cpp"]}
{"id": "C74", "title": "Viscosity dissipates", "statement": "In a fluid of one density beside resting walls the viscous forces never do positive work. Where the diffusion number of a particle (time step times 2 nu d / (n0 lambda) times its weight sum) is at most 1, the stage leaves every component of its velocity within the range of its own and its neighbours', and where that holds everywhere it does not increase the kinetic energy. (False beyond 1, for any larger bound, and false for fluids of two densities, however short the time step: the force is per mass, so the exchange feeds energy and momentum into the fluid.)", "quantifier": "all states, settings and reference values with exact neighbour lists; exact arithmetic", "why_tests_cant": "an inequality over all configurations; a sign or weight error shows only as slow growth of energy", "anchors": ["src/mps.cpp: MPS::calViscosity", "src/mps.cpp: MPS::moveParticle"]}
{"id": "C75", "title": "Forces within the fluid balance", "statement": "The viscous forces within a fluid of one density have no resultant, so the stage keeps the momentum. (False of the rest: with two densities they have one; they have a moment even with one density; the pressure forces do not balance, as each particle subtracts its own minimum pressure; and a collision, while it keeps momentum and centre of mass, changes the angular momentum by pushing the positions.)", "quantifier": "all states and settings with exact neighbour lists; exact arithmetic; refutations by two particles", "why_tests_cant": "exact cancellation over all particles cannot be observed in floating point", "anchors": ["src/mps.cpp: MPS::calViscosity", "src/mps.cpp: MPS::calPressureGradient", "src/mps.cpp: MPS::collision", "src/mps.cpp: MPS::setMinimumPressure"]}
{"id": "C76", "title": "The conversion script keeps the particles", "statement": "scripts/prof_to_csv.sh writes the time and the count, a header, and one CSV row for each row of seven words beginning with a numeral. A prof file written by the program is read by the CSV loader after the conversion as the prof loader reads it before: same time, same particles. The CSV files in input/ are exactly what the script makes of the prof files. (False of all files the program reads: a particle is lost without a message if its line has a tab, if it is the last line and lacks a newline, or if its type is negative.)", "quantifier": "all files whose lines consist of words and spaces; all finite particles of non-negative type and any number of them; binary64", "why_tests_cant": "the script has no test; over all texts and all printed values", "anchors": ["scripts/prof_to_csv.sh", "src/particles_loader/csv.cpp", "src/particles_loader/prof.cpp", "src/particles_exporter.cpp: ParticlesExporter::toProf", "input/dambreak/", "input/hydrostatic/"]}
{"id": "C77", "title": "The runner scripts make every run like the first", "statement": "What scripts/runner.sh does and leaves behind does not depend on anything visible in the result directory, so that after any number of runs the dam break runs as it does the first time. scripts/safe_runner.sh changes no existing file when its directory is new, and runs the shipped cases. (False with a blank in the path of the repository: runner.sh then empties result/dambreak in the directory it is called from and runs nothing. False of safe_runner.sh within one second: the second run overwrites the logs of the first and is refused.)", "quantifier": "all repositories, current directories, file systems, programs, solvers, clocks and numbers of earlier runs", "why_tests_cant": "the scripts have no test; over all states of the disk that earlier runs can leave", "anchors": ["scripts/runner.sh", "scripts/safe_runner.sh", "src/main.cpp", "src/loader.cpp: Loader::copyInputFileToOutputDirectory", "src/saver.cpp"]}
{"id": "C78", "title": "No pressure without compression", "statement": "Fluid of one velocity that is nowhere denser than the reference state, touches nothing and stays in the domain keeps its shape, has pressure zero and falls like a rigid body, for any number of steps, with either pressure method; in particular any piece cut out of the lattice of the reference values. Without gravity, matter at rest that is nowhere denser than the reference state, walls included, stays exactly where it is.", "quantifier": "all bodies, velocities, gravities, wall layouts, numbers of steps and solvers that solve exactly; exact arithmetic", "why_tests_cant": "an exact equality over whole runs of any length; a sign error in gradient, viscosity, collision or source term shows in tests only as noise", "anchors": ["src/mps.cpp: MPS::stepForward", "src/pressure_calculator/explicit.cpp", "src/pressure_calculator/implicit.cpp", "src/mps.cpp: MPS::collision", "src/mps.cpp: MPS::calPressureGradient"]}
{"id": "C79", "title": "Inventory of undefined behaviour", "statement": "If a run is undefined behaviour, then the settings were read, and one of the following is the cause: a CSV particle file of one line or without a needed column; a prof file that ends before a row it announces; a search radius or domain that is not usable, or more buckets than an int can count; binary VTU output of more than 715 million particles; the conversion to int of a coordinate that is NaN in the neighbour search (C86); 2^31-1 steps; or a duration in the progress report beyond 64 bits. Nothing else in the program is undefined. For prof files the condition is exact; VTU files are never the cause.", "quantifier": "all settings, particle files, file systems, clocks, builds, numbers of steps and solvers returning vectors of the right length; binary64", "why_tests_cant": "absence of undefined behaviour over all inputs and runs of any length; tests see only the inputs they try", "anchors": ["src/main.cpp", "src/loader.cpp", "src/particles_loader/", "src/mps_factory.cpp", "src/bucket.cpp", "src/neighbor_searcher.cpp", "src/mps.cpp", "src/simulation.cpp", "src/saver.cpp", "src/particles_exporter.cpp"]}
{"id": "C80", "title": "Every way a run ends early", "statement": "If the program exits it is with status -1, and because an argument does not exist, the particle file does not exist, has another format or appended data, a copy is in the way, the pressure method is unknown, the solver gives up, or a directory is in the place of an output file. If an exception ends it, the settings or particles cannot be read, the domain is not usable, or a file is in the place of an output directory. Only the debug build ends by an assertion, because the dimension is not 2 or 3, a radius is not larger than the particle distance, the particle distance is so small that its square vanishes, or two particles are computed to be in one place in a step. No step hangs, even with coordinates that are NaN: a run that does not end has not reached its finish time.", "quantifier": "all settings, particle files, file systems, clocks, builds, numbers of steps and solvers returning vectors of the right length; binary64", "why_tests_cant": "a complete list of causes quantifies over all inputs; tests can only confirm single entries", "anchors": ["src/main.cpp", "src/loader.cpp", "src/particles_loader/", "src/mps_factory.cpp", "src/saver.cpp", "src/particles_exporter.cpp", "src/pressure_calculator/implicit.cpp"]}
{"id": "C81", "title": "The unit tests, over all their inputs", "statement": "In doubles the weight is 1 at half the radius and 0 from the radius on, for every radius. The closed formulas of the reference value test are right for every particle distance in exact arithmetic; in doubles the 3D test holds for its 0.1 m. The neighbour search agrees with the brute force of its test for every pair whose distance differs from the radius by more than one part in 524288. Exported files exist. The two particles of the VTU test are read back. (False beyond: the 3D reference value test fails for 0.008 m, the neighbour test for particles at (0, 0, 0) and (0.06, 0.08, 0), the VTU test for coordinates with a third.)", "quantifier": "all radii, distances, particle distances, particle lists, domains and searchers; binary64 except the reference formulas", "why_tests_cant": "the tests sample one radius, one particle distance, one random seed and two particles", "anchors": ["test/weight_test.cpp", "test/refvalues_test.cpp", "test/neighbor_searcher_test.cpp", "test/particles_exporter_test.cpp", "test/vtu_loader.cpp", "src/weight.cpp", "src/refvalues.cpp", "src/neighbor_searcher.cpp"]}
{"id": "C82", "title": "Every exit says why, truthfully", "statement": "Whenever the program stops with exit, its status is -1 and the last thing printed is exactly one error message, whose content is true: the file it calls missing is missing, the format is not supported, the VTU file has appended data, the target of the copy is taken, the method is unknown, the solver gave up, or the output path is a directory. No error message is printed in any run that ends another way. The options come first, once each and in order, up to the first wrong one. A completed run has printed its two arguments and the log of C63, a run that ends early the reports of the steps done and at most one more, END SIMULATION appears only in completed runs, the printing does not change outcome or files, different errors have different texts, and each text names the file, format or method in question.", "quantifier": "all command lines with or without the two options in either order, all file systems, settings, YAML parsers, solvers returning vectors of the right length, clocks and numbers of steps, in doubles", "why_tests_cant": "a test looks at the message of one failing set-up; that no way to the end of the program lacks a message, or has a wrong or a second one, is about all of them", "anchors": ["src/main.cpp", "src/loader.cpp", "src/particles_loader/prof.cpp", "src/particles_loader/vtu.cpp", "src/mps_factory.cpp", "src/pressure_calculator/pressure_poisson_equation.cpp", "src/particles_exporter.cpp", "src/simulation.cpp"]}
{"id": "C83", "title": "Particles out of reach have no influence", "statement": "A group of particles to which no other particle comes nearer than the largest effective radius, at any of the three searches of any step, behaves exactly as in a run of its own without the others: same types, places, velocities, accelerations, pressures, number densities and minimum pressures, and the same neighbours at the same distances. With explicit pressures this holds bit by bit in doubles, and the run of the group completes whenever the run of all does; with implicit pressures, which come from one linear system for all particles, it holds in exact arithmetic whatever exact solver is used.", "quantifier": "all particle lists, groups, settings, numbers of steps, solvers; binary64 and exact arithmetic", "why_tests_cant": "a comparison of runs with and without distant particles samples a few arrangements; an index used in place of another, a sum over all particles or a matrix row that mixes groups may show in others only", "anchors": ["src/mps.cpp", "src/neighbor_searcher.cpp", "src/pressure_calculator/explicit.cpp", "src/pressure_calculator/implicit.cpp", "src/pressure_calculator/pressure_poisson_equation.cpp", "src/pressure_calculator/dirichlet_boundary_condition_generator/"]}
{"id": "C84", "title": "Implicit pressures: bound, support, monotonicity", "statement": "With an exact solver, no implicit pressure exceeds the largest compression (n - n0) / n0 among the particles solved for, times the relaxation factor, over the compressibility; neither the time step nor the densities enter. In a group of particles solved for, without others in reach, all pressures are between those of the least and of the largest compression; so the bound is attained: with one compression the pressure is exactly this everywhere. If none of these particles is below n0, the pressure is positive exactly at the compressed particles and at those joined to them by chains of such particles closer than the radius of the Laplacian. More compression anywhere lowers the pressure nowhere. At the end of a step all pressures obey the bound for the number densities found there.", "quantifier": "all particle lists, detectors, settings, solvers that are exact; exact arithmetic", "why_tests_cant": "properties of the solution of a linear system for every arrangement of particles; a test knows the solution only in special arrangements", "anchors": ["src/pressure_calculator/implicit.cpp", "src/pressure_calculator/pressure_poisson_equation.cpp", "src/mps.cpp"]}
{"id": "C85", "title": "The workflow: a comment means a completed run", "statement": "The workflow that computes the hydrostatic case for a pull request writes its comment only if all 5000 steps of the generated particles completed; the picture it shows is the state after step 5000 and the time it names is the time the run printed. If the solver gives up, the missing picture stops the workflow, although the step that runs the program does not fail (no pipefail). An output file that is new or changed was due in a state the run has reached. (False beyond: if the system clock is set back by a second or more during the run, the comment has no time.)", "quantifier": "all fresh checkouts at paths without blanks, whatever particle file is there, all solvers returning vectors of the right length, clocks, and readers of plain YAML; binary64", "why_tests_cant": "the workflow is itself the test; whether a failed computation can pass it is not observable by running it", "anchors": [".github/workflows/calc-hydrostatic.yml", "generator/generate_hydrostatic.cpp", "input/hydrostatic/settings.yml", "src/main.cpp", "src/simulation.cpp", "src/saver.cpp"]}
{"id": "C86", "title": "Exactly when a NaN is undefined behaviour, and an input that makes one", "statement": "A neighbour search in doubles is undefined behaviour exactly if some particle that is not a Ghost has a coordinate that is NaN and none outside the domain; otherwise it completes (with a NaN and another coordinate outside, the particle becomes a Ghost). A time step is undefined behaviour exactly if one of its three searches meets such a particle, and then it is the conversion of a NaN to int. Numbers alone do not protect from it: in a build without assertions, a Fluid particle in the place of another particle, with its velocity, becomes such a particle in the same step, because the weight of the pair is infinite and the difference of the velocities is zero; so no input that lists such a pair gets through its first step. With different velocities the Fluid particle is lost, too: if the step completes, it is a Ghost afterwards. With assertions the step stops at the pair, whatever the velocities, and the program ends with the failed assertion.", "quantifier": "all particle lists (also with NaN and infinite values), used searchers, sound states, solvers returning vectors of the right length; for the last part all input files and settings with usable domain and radii; binary64", "why_tests_cant": "undefined behaviour shows differently on every machine and compiler, mostly as a crash later or not at all; the pair of equal particles is stopped by the assertion of weight in the builds that tests use", "anchors": ["src/bucket.cpp", "src/neighbor_searcher.cpp", "src/mps.cpp", "src/weight.cpp"]}
{"id": "C87", "title": "Only differences of pressures act", "statement": "If all pressures are raised by one constant, the correction of a time step (minimum pressures, pressure gradient, move) gives every particle the same acceleration, velocity and place as before. If pressures and accelerations are multiplied by a factor that is not negative, so are the accelerations the pressure gradient leaves. Both hold in exact arithmetic for any neighbour lists. (False in doubles: a large constant swallows the differences, and a particle that was pushed away is not.)", "quantifier": "all particle lists, with any neighbour lists, settings, radii, constants and factors for which the original correction completes; exact arithmetic", "why_tests_cant": "a test compares two runs at one constant; a pressure used without the minimum subtracted, or a minimum taken from a fixed value such as zero, agrees wherever some pressure nearby is zero", "anchors": ["src/mps.cpp"]}
