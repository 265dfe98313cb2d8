# Design of the formal model of FiniteVolumeSolver

Everything lives in `rocq/theories`.  Each area has

* `<Area>Model.v` – Gallina transcription of the C++ code, every definition with a citation of file and lines in /repo,
* `<Area>Spec.v` – small independent definitions used in the statements,
* `<Area>Proofs*.v` – lemmas,
* `<Area>Properties*.v` – the theorems `Cxx_...`, each followed by `Print Assumptions`, with a concrete instance beside them.

Names: a theorem with suffix `_partial` proves a part of the property (the missing part is named in its comment), a theorem
with suffix `_refuted` proves that the code (the model of it) violates the property in a described situation.

## Conventions

* `double` and `Duration` are modelled by exact real numbers (Coq `R`).  Rounding, infinities and signed zero are *not*
  modelled.  NaN (square root of a negative number, division by zero) is a separate outcome where it can be reached.
* `int`, `ptrdiff_t` are unbounded integers (`Z`/`nat`); overflow is not modelled.
* User supplied code (equations, solvers, output objects, operators of split methods) are universally quantified functions.
* C++ undefined behaviour (out of bounds access, modulo by zero, failed FUB_ASSERT) is a separate outcome where it is reachable.
* Template/SIMD machinery: a SIMD array of width w is a list/function of w lanes; lane-wise operations are lane-wise.  The
  width is universally quantified.
* MPI reductions are modelled as a reduction over a list of rank values or omitted (single rank) when stated.

## Properties, models and proofs

| property | title | status | model | proof |
|---|---|---|---|---|
| C01 | Operator splitting spends exactly the requested time in every operator | proved | `SplitModel` | induction on the number of operators over the emitted (operator, dt) calls |
| C02 | A failing operator stops the split step at once | proved | `SplitModel` | state and error monad with arbitrary stateful operators; prefix lemma by induction |
| C03 | Strang splitting is time reversible, Godunov splitting is exact only for commuting operators | proved | `SplitModel` | instantiated with flows; algebra, induction on n |
| C04 | Dimensional split directions are a permutation which alternates | proved | `SplitModel` | parity arithmetic |
| C05 | A simulation run never overshoots its final time and its time points increase strictly | proved | `RunModel` | loop invariant of RunSimulation as a fuelled loop with a trace of events and an arbitrary solver |
| C06 | Failed steps leave no trace | proved | `RunModel` | loop invariant on the backup |
| C07 | Without backups a failed step ends the run without output of the failed state | proved | `RunModel` | loop invariant |
| C08 | Outputs are made only when due, and never twice for the same state | partial | `RunModel` | loop invariant; second half refuted by a run |
| C09 | NextOutputTime lies in the future and within one interval | proved | `OutputModel` | floor arithmetic |
| C10 | A collection of outputs behaves like the union of its members | proved | `OutputModel` | list induction |
| C11 | Output registration: first registration of a name wins | proved | `OutputModel` | association list |
| C12 | Subcycling: every level integrates the same physical time | proved | `SubcycleModel` | induction on levels and sub-steps of the event emitting recursion |
| C13 | Subcycling: the reported stable dt is stable on every level | proved | `SubcycleModel` | induction on levels |
| C14 | A too-large time step error is reported in units of the coarsest level | proved | `SubcycleModel` | induction, error scaled at each level |
| C15 | Event order within a coarse step | proved | `SubcycleModel` | independent grammar of event traces |
| C16 | Conservation across refinement boundaries | proved | `RefluxModel` | any dimension, any number of levels, arbitrary numerical fluxes; telescoping sums and reindexing of fine faces |
| C17 | The conservative update conserves | proved | `UpdateModel` | telescoping |
| C18 | Vectorised kernels equal their sequential counterparts | proved | `UpdateModel` | strong induction on the row length |
| C19 | Array layouts are injective and dense | proved | `ArrayModel` | mixed radix numbers, list induction |
| C20 | Sub views address the same elements | partial | `ArrayModel` | list induction; refuted for empty boxes |
| C21 | Slicing keeps the order of extents even for empty ranges | partial | `ArrayModel` | list induction; refuted for empty ranges |
| C22 | Index box algebra | proved | `ArrayModel` | pointwise arithmetic |
| C23 | Loops visit every index exactly once, fastest index first | proved | `ArrayModel` | induction over the rank, sorted permutation |
| C24 | Row iteration covers the view exactly | partial | `ArrayModel` | strong induction over the row pointer; corner cases refuted |
| C25 | Two strided mappings compare equal only if they address the same elements | partial | `ArrayModel` | injectivity; refuted for strides |
| C26 | HLL flux is consistent and conservative at the intermediate state | proved | `FluxModel` | field |
| C27 | The computed stable time step keeps water heights and densities positive | proved | `FluxModel` | convex combination, induction over steps |
| C28 | Burgers: Godunov scheme obeys the maximum principle and is TVD | proved | `FluxModel` | Harten form, induction over steps |
| C29 | Advection: upwinding obeys the maximum principle and moves data exactly at CFL one | proved | `FluxModel` | Harten form |
| C30 | Slope limiters are symmetric and stay in the TVD region | proved | `LimiterModel` | case analysis, nra |
| C31 | MUSCL-Hancock reconstruction introduces no new extrema and preserves constants | proved | `LimiterModel` | case analysis |
| C32 | The stable time step of a patch accounts for every stencil | partial | `StableDtModel` | minimum over a list; sequential loop and vectorised tail refuted |
| C33 | Perfect gas: conversions between state representations are inverse to each other | proved | `GasModel` | field, lists for the dimension |
| C34 | Reflection is an energy preserving involution | proved | `GasModel` | algebra of dot products |
| C35 | Rotation to a boundary normal is a proper rotation mapping one normal to the other | partial | `GasModel` | field; 3d antiparallel case refuted |
| C36 | HLLEM scalar flux agrees with its vectorised flux and is consistent | partial | `HllemModel` | field; Larrouturou in the scalar version refuted |
| C37 | Einfeldt signal speeds are ordered and enclose the cell velocities | partial | `GasModel` | square roots; enclosure refuted |
| C38 | Newton iteration never returns an unconverged value silently | partial | `NewtonModel` | fuelled loop, invariants; refuted as stated |
| C39 | Cut cell fluxes: stabilised flux is a weighted average | proved | `CutCellModel` | convexity |
| C40 | Ignition delay kinetics keeps mass fractions a partition of unity | proved | `KineticsModel` | invariant over histories, AdvanceRow for the packs |
| C41 | Arrhenius kinetics does nothing below the switch temperature | partial | `KineticsModel` | exponentials; refuted as stated |
| C42 | Gas turbine control stays within its operating range | partial | `PlenaModel` | invariants over histories, atan bounds |
| C43 | Pressure valve boundary: an open valve always has an opening time | partial | `ValveModel` | invariants over histories |
| C44 | Air/fuel valve: fuel phases start on schedule | proved | `ValveModel` | invariants over histories |
| C45 | Tag buffer (2d) never removes tags and tags exactly the neighbourhood | partial | `TaggingModel` | in-place loop: set of marks |
| C46 | Tag buffer in 1d and 3d does the same as in 2d | partial | `TaggingModel` | in-place loop; refuted |
| C47 | Gradient detection finds every steep neighbour pair | partial | `TaggingModel` | in-place loop over rows |
| C48 | Counter statistics are correct | partial | `CounterModel` | Welford recursion = mean and variance by induction |
| C49 | Every finished timer is recorded exactly once | partial | `CounterModel` | ownership machine |
| C50 | The pool allocator never hands out memory which is still in use | partial | `PoolModel` | heap with free list, refuted by histories |
| C51 | Signed distance to a polygon | proved | `GeometryModel` | projection on segments, chunk loop, crossing parity |
| C52 | Geometry combinators implement set operations | proved | `GeometryModel` | maxima, rotations |
| C53 | Reflective boundary mirrors interior cells into the ghost layer | proved | `BoundaryModel` | index maps, two sweeps for corners |
| C54 | Level time bookkeeping | partial | `ContextModel` | time points and cycles of all levels as state, induction over the sub-cycling recursion with regridding |
| C55 | Adapter copies between buffers and states round-trip | partial | `StateModel` | lists of variables, views over a linear memory |
| C56 | Type erasure of a split method does not change its behaviour | partial | `SplitModel` | comparison of the traces |
| C57 | A simulation run terminates | partial | `RunModel` | well founded progress; unconditional version refuted |
| C58 | Copies of a solver context | partial | `ContextModel` | copy of hierarchy and context data |
| C59 | Component slices address the component's elements | partial | `ArrayModel` | list induction |
| C60 | Mixed static and dynamic extents | proved | `ArrayModel` | list induction |
| C61 | MUSCL-Hancock advection is TVD, bounded and exact for linear data | proved | `LimiterModel` | Harten form of the MUSCL-Hancock scheme |
| C62 | HLLEM keeps contact and shear waves at rest exactly | partial | `HllemModel` | field |
| C63 | Mass fractions keep their bounds under Larrouturou upwinding | partial | `HllemModel` | convex combination |
| C64 | Cut cell face fractions partition the face | proved | `CutCellModel` | case analysis on fractions |
| C65 | Cut cell update is conservative and preserves a free stream | proved | `CutCellModel` | telescoping over a line of cells |
| C66 | Small cut cells do not restrict the time step | proved | `CutCellModel` | convex combination |
| C67 | Vectorised cut cell update agrees with the scalar one | partial | `CutCellModel` | lane by lane |
| C68 | HLLEM takes the upstream flux in supersonic flow | partial | `HllemModel` | field |
| C69 | Cut cell tagging finds exactly the cut cells | proved | `TaggingModel` | in-place loop |
| C70 | Mass flow boundary imposes the required mass flow | partial | `MassflowModel` | field, square roots; compressing flow refuted |
| C71 | Transmissive and constant boundaries fill exactly the ghost cells beyond the boundary | proved | `BoundaryModel` | index maps |
| C72 | Scalar and vectorised signal speeds of the gas mixture agree | partial | `MassflowModel` | monotonicity |
| C73 | Component numbers, index mapping and variable names agree with the order of the values | proved | `StateModel` | lists |
| C74 | Pointers and packs of cells agree with cell by cell access | proved | `StateModel` | strides of views |
| C75 | The exact Riemann solver returns the entropy solution | proved | `RiemannModel` | derivatives of the fan, Rankine-Hugoniot algebra, entropy production of shocks, intermediate value theorem |
| C76 | Signal speeds of the exact Riemann solver are sharp bounds | proved | `RiemannModel` | ordering of head, tail, shock and contact |
| C77 | The middle state of the exact Riemann solver is computed to the tolerance | partial | `RiemannModel`, `NewtonModel` | concavity of the pressure function, residual times slope divided by four per step; step to zero refuted |
| C78 | Godunov's flux is consistent and is the flux of the exact solution | proved | `RiemannModel` | C75 at x = 0 |
| C79 | The exact Riemann solver for shallow water returns the entropy solution | proved | `ShallowModel`: height function, middle state, solution at the interface | the states left and right of the contact as functions of x / t: shocks satisfy the jump conditions and dissipate, fans are smooth; existence by the intermediate value theorem, uniqueness by monotony |
| C80 | Signal speeds of the exact shallow water solver are sharp bounds | proved | `ShallowModel`: signals | the heads of the waves of C79; behind a head the solution differs at once |
| C81 | The middle state for shallow water is computed to the tolerance | partial | `ShallowModel` with `NewtonModel` | the height function is increasing and concave; Newton from below converges monotonically, residual times slope is divided by four |
| C82 | Godunov's flux for shallow water is consistent and is the flux of the exact solution | partial | `ShallowModel`, flux of `FluxModel` | C79 at x = 0; equal states are a zero of the height function |
| C83 | Updates of tubes with a varying cross section conserve | proved | `AxialModel`: cells as functions of index and component, in-place loops, cached areas with their layouts | loop invariants for the in-place update; telescoping sums; invariant over event histories |
| C84 | The source term for a varying cross section is exact and isentropic | partial | `AxialModel`: `diameters`, `axial_source` | derivative of the exponential, algebra of powers |
| C85 | Detonations are triggered on schedule | partial | `IgniteModel`: last ignition times per level, calls as events, measurement over processes and levels | closed form of the next time point by induction on the history; the sum over processes only scales the moles |
| C86 | An ignition heats a ramp and leaves the rest of the gas as it is | partial | `IgniteModel`: `ignite_cell`, chemistry an arbitrary function | case analysis, linear interpolation |
| C87 | Setting the internal energy finds the temperature | partial | `EnergyModel`: scalar and pack iteration with energy and heat capacity as arbitrary functions | bracket invariant: the distance to the solution shrinks by a factor 9/10 on the side where the iterate is, for both sides; packs: potential per lane that reaches a state where the lane stays converged |
| C88 | Composition of the reactor | partial | `ReactorModel`: setters and getters over lists of any length with an arbitrary mechanism | sums of lists by induction, normalisation lemmas, invariant of the assignment loop for strings |
| C89 | Chemistry conserves mass and energy | partial | `ReactorModel`: right-hand side, cache of thermodynamic data, Advance with an arbitrary solver, one cell of the source term | derivative of finite sums, energy balance of the right-hand side, mean value theorem; invariant of the cache over call histories; counterexample: two isomers with an explicit solution |
| C90 | Completing a conservative mixture state | proved | `ReactorModel.CompleteFromCons` on top of `EnergyModel.SetEnergy` | cache lemmas identify the functions the iteration sees with the mixture energy; C87_converges; Lipschitz bound |
| C91 | Integration of ordinary differential equations | partial | `OdeModel`: both interfaces with the routines as arbitrary functions, undefined behaviour explicit | case analysis over codes, induction over the loop with an archimedean bound, counterexamples with y' = 1 |
| C92 | Initial data of a shock with a Mach number | partial | `ExpansionModel`: ComputePreShockState in any dimension | field identities for the relative velocity; the converse from the momentum condition |
| C93 | Expansion to a given pressure | partial | `ExpansionModel`: the five functions that expand a state to a pressure | the stagnation state cancels in the density (Rpower identities), monotonicity of powers for the stagnation pressure |
| C94 | Expansion to a given Mach number | partial | `ExpansionModel`: MachnumberExpand | the Laval number reduces to 1 / f, f = 1 + (g-1)/2 Ma^2; exact formula for the actual Mach number |
| C95 | Source term of diffusion | partial | `DiffusionModel`: fluxes and update of one row of cells | telescoping sums; convexity of the update below the limit |
| C96 | Source term of axial symmetry | partial | `AxisymModel`: right-hand side, classical Runge-Kutta step, integrate_const of one cell | all stages stay on the line of constant velocities; alternating Taylor polynomials of the exponential function |
| C97 | Source terms around a system | partial | `SourceModel`: the integrator as an operation on solvers, nested over a list | schedules of calls by induction over the nesting, as for C01 and C02 |
| C98 | No gas flows through the embedded boundary of a cut cell | partial | EmbeddedModel: rotation to the normal, mirror state, exact Riemann problem (RiemannModel) and back; boundary flux of one direction; cells outside the fluid keep their reference state. | The rotations form an orthogonal frame with the normal as first row (2D, 3D, and the special case of opposite vectors). Mirror symmetry makes the middle velocity exactly zero whatever the iteration returns; concavity bounds give convergence; an estimate of the shock speed shows that the state behind the left wave is taken. |
| C99 | The optimisation solver finds a cheapest point or there is none | proved | MdLimiterModel: the active set method line by line, constraints as a list, failed assertions and the exception as results. | Invariant: the working set is a feasible vertex. Optimality by duality; an unblocked direction gives a ray of decreasing costs. Termination: after the first pivot the kept row turns monotonically towards the costs (an exterior product of consecutive rows keeps its sign), so the number of rows ahead decreases. |
| C100 | The limiter of gradients in cut cells returns the largest monotone gradient | proved | MdLimiterModel: connected neighbours, constraints, the solver with 100 iterations and the scaled gradient. | The constraints are equivalent to the English property; the starting point 0 is a vertex; there are at most 22 constraints; then C99. |
| C101 | Gradients in cut cells are exact for linear data | partial | MdGradientModel: sort of the four faces, the three stencils, least squares by normal equations, limiter from C100, assertions as None. | Insertion sort gives a permutation sorted by the open fraction if the comparison is total on the faces; least squares is exact because the Gram determinant vanishes only if all differences are parallel; an exact gradient is monotone, so C100 keeps it. Counterexamples by evaluation. |
| C102 | States at a face of a cut cell: linear data, unshielded centroid | partial | HGridModel: cells with gradients, unshielded interval per side and their intersection. | Case analysis on the shielding side and the sign of the normal; linear algebra. |
| C103 | States at the wall are mirror images | partial | HGridModel.ReconstructEmbeddedBoundaryStencil with arbitrary state type, completion and reflection. | mirror(b + t e) = b + t (e - 2 (e.n) n). |
| C104 | Reference state of a cut cell | partial | IntegrateCellState over a list of parts, ComputeBoundaryStates as a loop with scratch variables. | Sums over parts are linear; induction on the loop. |
| C105 | States at the shielded part of a face are means over one cell width | proved | ReconstructSinglyShieldedStencil. | Integral of a linear function is length times midpoint value; specification with antiderivatives. |
| C106 | Stabilised fluxes of the h-grid method and their update conserve | partial | MyStab_Row as loop with lanes, update2 for one cell. | Telescoping sum by induction on the number of cells; partition of the fractions (C64). |
| C107 | Uniform flow along the walls stays uniform with the h-grid method | proved | The stencils of C102 to C105, update2. | Evaluation with zero gradients; weights add up to the face fraction. |
| C108 | Reactions keep the atoms of every element | proved | `MechanismModel` and the generated tables `MechBurke` ... `MechAramco91`; formulas in `MechanismSpec`. | Rates of an element are a sum over reactions with integer coefficients; the check that all vanish is evaluated once and proved sound for all rates. |
| C109 | Species which are absent are not consumed | proved | As C108. | Each reaction with a negative coefficient for a species has its concentration as a factor; bounds of the coefficients on compact sets. |
| C110 | Reactions keep the mass; molar masses fit the formulas | partial | As C108 with the molar masses. | As C108 with rational weights; for Zhao all reactions of the two species lose or keep mass. |
| C111 | Production rates are numbers | partial | `GetLindRateCoeff`, `GetPlogRateCoeff` with NaN as a separate outcome. | Bounds of the broadening factors by exponential estimates; for the refutation sign of a sum of exponentials on [5000, infinity). |
| C112 | Rate coefficients between low and high pressure | proved | As C111. | Algebra; induction on the table. |
| C113 | Species are found under their formula | partial | Names as lists of strings, `SetMassFractionsString` of C88. | Induction on the entries of the text. |
| C114 | Reconstructions solve the linearised equations exactly | partial | `PrimitiveGradient`, `CharacteristicsGradient`, `PrimitiveReconstruct`, `CharacteristicsReconstruct(_lane)` of `ReconstructModel`; flows with partial derivatives in `ReconstructSpec`. | Derivatives of affine functions are unique, so the equations fix the time slopes; algebra. For other Mach numbers a flow that is driven by a pressure gradient only. |
| C115 | Undoing a reconstruction | partial | `ReconstructInvers` with NaN and failing assertions as None. | Algebra; concrete states for the refutations. |
| C116 | Reconstructed density and pressure are positive | partial | As C114. | MinMod slopes keep X + dx s between 0 and 2 X; bound of the remaining terms. |
| C117 | MusclHancock2 is the MUSCL-Hancock method | proved | `Muscl2`, `Muscl2_masked`, `ConservativeGradient`, `ConservativeReconstruct`; `MusclFlux` of C31. | The limiters are homogeneous; case distinction on the masks. |
| C118 | MusclHancock2 prefers no direction | proved | As C114 with `mirror` of the specification. | Gradients change sign under the mirror, reconstructions swap sides. |
| C119 | Data resampled between grids are exact means | partial | `InterpolateStates_Greater/_Less` with reads beyond the end as outcome of its own. | Primitive function of piecewise constant data; invariant of the inner and outer loop. |
| C120 | Ghost cells at a connection continue the other block | partial | Boxes and widths of the mirror and ghost cells; order of the cells. | C119 and arithmetic of boxes; the mean does not depend on cells further away. |
| C121 | Averages over the cross section of a plenum | partial | Sums over ranks, tiles and cells; averages with and without normal; states of different dimensions. | Flattening of sums, permutations; admissible states form a convex cone. |
| C122 | Conservation at a connection | partial | `GetBoundary`, `AverageFlux_`, faces and components of the tube. | Flattening of sums; counterexample at the upper end. |
| C123 | Every connection is renewed in every step | partial | Lists of connections, conditions of a block, zip; minimum; copy. | Positions in filtered lists. |
| C124 | The twelve cell flux is the three stage Runge-Kutta method | proved | `ComputeNumericFlux` with its arrays of optional values, the three stages on the whole grid separately. | Each local array equals the stage on the grid, shifted; algebra of the final combination; linear operators. |
| C125 | Fluxes at the faces of the third order method | partial | `CellToEdge`, `ComputeDiffusion`. | Symmetry of all stages under reflection; counterexamples for parabolas and positivity. |
| C126 | Contact waves and time step of the third order method | partial | As C124, and `ComputeStableDt`. | Contact states are closed under the stages; waves of three cells form an invariant subspace of the linear method on which its square is a multiple of the identity. |
| C127 | Limiter of the primitive MUSCL-Hancock method | partial | The lambda `limiter` with its masks. | Cases on the masks; harmonic means. |
| C128 | MUSCL-Hancock in primitive variables | partial | `MusclHancockPrim::ComputeNumericFlux` for one lane, with and without cut cells, on top of the HLLEM model. | Half step as Taylor expansion of the Euler equations in primitive variables; theorems of C36 and C62 for HLLEM. |
| C129 | MUSCL-Hancock in characteristic variables | partial | `ComputeAmplitudes`, `Recombine`, `ComputeSlopes`, `DoTimeStep`, `Reconstruct` and the flux. | Algebra per direction; theorems of C36 and C62. |
| C130 | Outflow with a given pressure | partial | The ghost state of both versions and the loop over boxes and cells. | Loop theorems of C18; algebra. |
| C131 | Turbine: mass flow by an exact Riemann problem | partial | `SolveExact` with a universally quantified bracketing root finder. | Shock and rarefaction relations of C33 give a self-similar solution; intermediate value theorem; explicit counterexample. |
| C132 | Turbine: mass flow without losses | partial | `ComputeRequiredMassflow`, `AverageRequiredMassflow`, `Jirasek` with the Newton iteration of C38. | Algebra of isentropic flow; invariants of the Newton loop. |
| C133 | Plenum in front of the turbine | partial | `FlushState`: one ghost cell in the four cases. | Algebra of isentropic flow. |
| C134 | Advection with given mass fluxes | partial | `LowMachModel.v`: the flux, one sweep, the choice of the time step, the splitting of C01; threads as interleaved reads and writes of the minimum. | Algebra of the flux; invariants of the splitting; sums over a period. |
| C135 | Advective fluxes and the divergence of the pressure equation agree | proved | The averages to faces and nodes and the divergence in nodes. | Linear identities. |
| C136 | Implicit pressure step and initial projection | partial | `DoEulerBackward` and `InitialProjection` with a universally quantified solver; the stencil of the operator. | The stencil is divergence of rotated gradient; summation by parts gives uniqueness and the energy estimate; explicit counterexamples. |
| C137 | Complete step for nearly incompressible flow | proved | `DoEulerForward` and `AdvanceLevel`. | Composition of the stages; invariants. |
| C138 | Smoothers keep exactly the solutions | proved | `MultigridModel.v`: the stencils of the smoothers with masks, sweeps as folds over lists of nodes, several boxes with copies and owners. | The stencils are compared with the operator of C136; induction over the sweep. |
| C139 | Transfer between the grids of the multigrid solver | proved | Restriction, interpolation, averaging of coefficients. | Summation by parts on a periodic grid; convex combinations. |
| C140 | Walls in the multigrid solver | proved | `bc_doit` as a fold over points in any order, the scaling at walls. | Invariant of the fold; telescoping sums. |
| C141 | HDF5 output shows the finest data | partial | `Hdf5Model.v`: patches per rank, copies, the sum over ranks, filling from the coarser level, finest level first; volume fractions with ghost cells; memory order. | Induction over patches, ranks and levels against an inductive definition of the finest value. |
| C142 | Probes record the state of the finest cell | partial | GatherStates with cells as half open rectangles. | A point lies in at most one cell of a level; induction over levels. |
| C143 | Time series in HDF5 files and files of earlier runs | partial | The calls of the HDF5 library as atomic steps, files as finite maps. | Enumeration of the intermediate states for any earlier series; pigeonhole for free names. |
| C144 | Averages over a box | partial | `FeedbackModel.v`: boxes, patches per rank, sums over the intersection, the sum over ranks. | Permutations of the points of a box; number of patches per point; superadditivity of the internal energy. |
| C145 | Feedback from the flow to the control of the gas turbine | partial | `FeedbackModel.v` on top of `PlenaModel.v`: boundary boxes, end faces of tubes, plenum update, call of the control. | Uniqueness of the owner of an end face; induction over the calls. |
| C146 | Initial data from a one-dimensional profile | partial | `ProfileModel.v`: lower_bound, the three cases, the transposition of the file. | Splitting of an ordered profile by a cell. |
| C147 | Results of parallel loops and means over boxes do not depend on threads | partial | `ThreadsModel.v`: copies per thread, passes assigned to threads, reduction; tiles, fabs with ghost cells and ranks. | Induction over passes with an associative commutative operation; sums over boxes from C144. |
| C148 | Source terms and output of several tubes | partial | `ThreadsModel.v`: source terms as arbitrary functions with errors; the clamp that chooses the block. | Induction over the tubes; case analysis on the block number. |
| C149 | Tubes around a line through points | partial | `TubeModel.v`: directions, cutting planes, distances, minimum; getline, counting of lines, reading and resizing. | Correspondence of columns and points; the projection is the nearest point; bisectors do not point against their segments; induction over lines. |
| C150 | Fields saved for debugging are written completely | proved | `DebugModel.v`: lists of hierarchies, names and geometries that grow together; partition by layout. | Indices of a stable partition correspond to a filter of the saved fields; induction over calls. |
| C151 | Fields and snapshots for debugging do not overwrite each other | partial | `DebugModel.v`: the loops over names and over directories on strings. | All names as one list with an invariant for the part that is done; numbered directories as marks for termination. |
| C152 | A cone is given by a signed distance | partial | `ConeModel.v`: the function with its vectors, branch by branch. | Reduction to two cylindrical coordinates; Cauchy-Schwarz with the normal of the lateral surface for lower bounds, the foot of the perpendicular for attainment. |
| C153 | Regions are covered by boxes of cells | proved | `RegionModel.v`: the loops over axes and cells with the running maximum and minimum. | Loop invariant about the cells seen so far; middles of cells are ordered like the indices. |
| C154 | A wall on a part of the boundary fills exactly its ghost cells | partial | `WallModel.v`: the loop over the cells of the section in a patch, with undefined accesses as an own outcome. | The cells that are read are never stored to, so that the order of the loop does not matter; mirror images stay in the patch with its ghost cells. |
| C155 | Log files keep what was logged | partial | `LogModel.v`: binary search on byte strings, replacement of line breaks, a file system as a map from names to nodes. | Correctness of the search for every sorted permutation of the list; induction over the message; case analysis for the file system. |
| C156 | Spaces without walls exist for every level | proved | `RegularModel.v`: boxes as lists of closed intervals of integers, the spaces as lists of levels. | Coarsening undoes refinement; invariant of the loop over coarser levels; the domains of different levels differ. |
| C157 | Mass flow boundary of embedded geometries | partial | `InflowModel.v`: the formulas over the reals, the processes as lists of cells. | Closed form p' = p q^(gamma/(gamma-1)), rho' = rho q^(1/(gamma-1)) with q = c^2/(c^2+(gamma-1)/2(u^2-u_n^2)); induction over processes and cells. |
| C158 | Fluxes for exactly the faces with a full stencil | proved | `RangeModel.v`: boxes as bounds for each axis, the loop over tiles as a fold. | Linear arithmetic on the bounds; induction over the tiles. |
| C159 | Program options are what the script says | partial | `OptionsModel.v`: maps as association lists, conversions as arbitrary partial functions, processes as programs with a blocking broadcast. | Induction over the dictionary; the run of the processes for every number of steps. |
| C160 | Initial data with embedded boundaries | proved | `StartModel.v`: data as functions of cells, tiles as lists of cells, the reactor threaded through the loop. | Induction over cells and tiles; the setters overwrite everything CompleteFromReactor reads. |
| C161 | Refinement of a fixed region | partial | `FixedModel.v`: boxes, their refinement and intersection for any number of axes, tags as functions of patch and cell. | Refinement of boxes corresponds to division of indices; induction over levels and tiles. |
| C162 | Ignition of several tubes | proved | `TubeIgniteModel.v`: the loop over source terms and tubes for any source, with the ignition of `IgniteModel.v`, histories of calls and the archive. | Induction over tubes and calls, comparison with a single ignition called on the levels of one tube. |
| C163 | Completion of conservative states on patches | proved | `CompleteModel.v`: rows as lists, loads and stores that fail out of bounds, arrays with the lanes of the last chunk. | Induction over chunks with the finished part of a row as invariant. |
| C164 | The table with the state of the control unit | proved | `TableModel.v`: the map of fields with the order of its keys, a file system as function of paths, datasets as lists. | Induction over calls and over numbers of names; columns by comparing the two traversals of the map. |
| C165 | Layout of probes in a file | proved | `SlabModel.v`: buffers as functions of positions, the three index maps, loops as folds of assignments. | Injectivity of the index maps by uniqueness of division; induction over assignments and levels. |
| C166 | Copies of a patch level | partial | `CopyModel.v`: arrays with boxes, owners, arena and values, pointers as options, new memory with arbitrary contents. | Case analysis over the data description. |

## Trusted base

* The kernel of Coq 8.16.1 (with its standard flags) and the statements of the theorems together with the `Spec` files.
* That the `Model` files describe the code: they were transcribed by hand from the pinned commit, line by line, with the
  simplifications named in the comment of each definition.
* The axioms below, all from Coq's standard library (none of our own, none of another library), as listed by
  `Print Assumptions`:
  * F = `ClassicalDedekindReals.sig_forall_dec`, N = `ClassicalDedekindReals.sig_not_dec` (construction of the reals),
  * E = `FunctionalExtensionality.functional_extensionality_dep`,
  * C = `Classical_Prop.classic` (used by the standard library's exp, ln, Rpower, atan, integrals).

| axioms | theorems |
|---|---|
| none | C19_layouts_are_bijections, C19_strides, C20_subview_same_elements, C20_subview_box_partial, C20_nested_subviews, C20_subview_box_refuted, C21_slice_partial, C21_slice_elements, C21_slice_refuted, C22_intersect, C22_contains, C22_grow_shrink, C22_neighbours, C22_embed_neighborhood, C23_for_each_index, C23_memory_order, C24_rows_rank1_rank3, C24_rows_rank2_partial, C24_zero_width_refuted, C24_empty_subview_refuted, C25_equal_mappings_partial, C25_strided_refuted, C59_slice_last_partial, C59_layout_right_refuted, C60_mixed_extents, C53_fill, C53_patch, C53_periodic, C53_corner, C53_corner_wrong_order, C71_transmissive, C71_constant, C71_view, C163_simd, C163_sequential, C163_agree, C163_view, C166_copy_partial, C166_copy_refuted, C166_again_partial, C49_recorded_partial, C49_event, C49_moved_from, C49_assignment_refuted, C150_gather, C151_unique_partial, C151_unique_refuted, C151_averages, C151_averages_refuted, C151_directory, C151_directory_partial, C151_directory_refuted, C161_tags, C161_nested, C161_samrai_partial, C161_samrai_refuted, C141_something_to_show, C141_axes_reshaped, C143_series, C143_crash, C143_shape_partial, C143_old_files_kept, C143_plenum_probes, C155_filter, C155_format_partial, C155_format_refuted, C155_old_partial, C155_old_refuted, C155_directory, C108_atoms, C121_direction, C121_direction_refuted, C123_first_version, C123_second_version_partial, C123_second_version_refuted, C123_copy_refuted, C140_mirror, C159_options, C159_box, C159_vector_refuted, C159_direction_refuted, C159_script_partial, C159_script_refuted, C10_shall_iff_some_member, C10_invokes_due_members_in_order, C11_first_registration_wins, C50_aliasing_refuted, C50_circular_refuted, C50_corruption_refuted, C50_small_blocks_refuted, C50_sizes_partial, C50_release_partial, C50_release_refuted, C146_file_partial, C146_columns_refuted, C158_faces, C156_levels, C156_space, C156_abort, C04_split_directions, C55_buffer, C55_buffer_back, C55_patch, C55_part_of_patch, C55_more_layers_refuted, C73_components, C74_pointers, C74_packs, C12_without_subcycling, C14_without_subcycling, C45_buffer_partial, C45_distance_partial, C45_upper_side_refuted, C46_1d_outside_refuted, C46_1d_neighbours_refuted, C46_1d_removal_refuted, C46_1d_partial, C46_3d_partial, C46_3d_untagged_refuted, C147_reduce, C147_team_refuted, C147_inner_box, C148_advance, C148_block_partial, C148_block_refuted, C162_failure, C149_points_refuted |
| CEFN | C84_exact_flow, C96_outflow, C96_inflow_refuted, C98_wall_state, C98_wall_force, C98_no_leak, C98_tangential_flow, C98_leaving_refuted, C87_converges, C87_packs_converge, C87_negative_refuted, C93_set_pressure, C93_set_pressure_direction_refuted, C93_species_refuted, C93_energy_counted_twice_refuted, C93_no_acceleration_refuted, C93_perfect_gas_speed_refuted, C94_pressure_and_velocity, C94_mach_number_refuted, C94_direction_refuted, C145_control_plenum, C145_control_tube, C145_balance, C157_exists, C157_massflow_partial, C157_massflow_refuted, C40_step, C40_rates, C40_history, C40_rows, C40_short_delay, C41_burn_partial, C136_momentum, C136_pressure, C136_unique, C136_projection, C136_momentum_any_k_refuted, C136_projection_after_step_refuted, C137_forward, C137_conserves, C137_background, C137_uniform, C108_elements, C108_noble_gases, C108_solutions, C109_loss, C109_absent, C109_step, C110_mass_burke, C110_mass_rounded, C110_solutions, C110_mass_zhao_refuted, C111_rates_defined, C111_hot_refuted, C112_falloff, C112_plog, C112_tables, C138_diagonal, C42_history_partial, C42_fuel, C42_pressure, C42_default_pressure, C42_energy, C42_mode, C42_update, C42_speed_refuted, C89_solutions_conserve, C89_source_term, C89_stale_energy_refuted, C90_completion, C75_entropy_solution, C75_exists, C75_vacuum, C76_signals, C77_middle_state_partial, C77_converges, C77_converges_below, C77_vacuum_exception, C77_stuck_refuted, C78_consistent, C78_godunov, C79_exists, C81_middle_state_partial, C81_converges, C81_converges_below, C131_ghost, C131_boundary_flux, C131_rejected, C131_accepted, C131_complete_refuted, C132_required, C132_required_oblique_refuted, C132_average, C132_jirasek_partial, C132_consistent, C132_supersonic_refuted, C132_choked_refuted, C132_backflow_refuted, C133_outflow, C133_rest, C133_against, C133_inflow_partial, C133_scalars_refuted, C133_enthalpy_refuted, C133_reference_refuted |
| E | C158_tiles |
| EF | C83_update_cells, C83_conserves, C83_at_rest, C96_perfect_gas, C96_untouched, C96_remainder_refuted, C96_species_refuted, C54_times_agree_partial, C54_times_agree_up_to_three_levels, C54_times_agree_without_subcycling, C54_times_agree_refuted, C54_published_after_last_subcycle, C54_coarse_cycles_partial, C54_cycles_partial, C54_cycles_refuted, C39_between, C39_uniform, C39_branches, C39_weights, C64_partition, C64_shielded, C64_branches, C65_conservation, C65_through, C65_wall, C65_closed, C65_free_stream, C66_small_cells, C67_branches_partial, C67_covered_refuted, C150_face_average, C95_density_kept, C95_conservation, C95_periodic_conservation, C95_maximum_principle, C95_kinetic_energy, C95_equilibrium, C95_stable_dt_refuted, C95_copy_refuted, C87_masked, C144_mean, C144_distribution, C144_admissible, C144_outside_refuted, C144_accumulate, C145_flow_partial, C145_flow_refuted, C145_shared_faces_refuted, C145_state_partial, C145_temperature_refuted, C145_tube_fluxes, C145_tube_species_energy, C145_tubes, C26_consistent, C26_rankine_hugoniot, C26_upwind, C26_lanes, C27_density_stays_positive, C28_maximum_principle, C28_bounds, C28_total_variation, C28_local_variation, C28_lanes, C29_maximum_principle, C29_bounds, C29_total_variation, C29_exact_shift, C34_reflection, C34_axis, C35_two_dimensions, C35_three_dimensions_partial, C35_three_dimensions_refuted, C35_rotated_states, C52_union, C52_union_distance, C52_invert, C102_linear, C102_centroid_partial, C102_closed_refuted, C103_states, C103_slopes_partial, C103_momentum_refuted, C104_linear_partial, C104_gradient_refuted, C104_stored, C104_stale_refuted, C105_left, C105_right, C105_linear, C106_mean, C106_conservation, C106_wedge_refuted, C106_double_refuted, C107_stencils, C107_balance, C141_shows_finest_partial, C141_restricted_shows_finest_partial, C141_distribution, C141_zero_marker_refuted, C141_xlower_partial, C141_xlower_refuted, C141_axes_declared_refuted, C141_cut_cells_partial, C141_cut_restricted_partial, C141_cut_ranks_refuted, C141_cut_ghosts_refuted, C142_finest_state_partial, C142_one_level, C142_outside, C142_zero_component_refuted, C142_tubes_refuted, C143_resume_refuted, C85_schedule, C85_not_too_often, C85_measurement, C85_no_measurement, C85_zero_offset_refuted, C85_interval_refuted, C86_profile_partial, C86_momentum_refuted, C157_average, C30_limiters, C30_gradient_limiters, C30_unlimited, C31_no_new_extrema, C31_constant_data, C31_limiters_flat, C31_cut_cells, C61_maximum_principle, C61_total_variation, C61_linear_exact, C134_consistent, C134_upwind, C134_exact_for_straight_profiles, C134_keeps_uniform_quotient_and_velocity, C134_conserves, C134_stable_dt, C134_steps_are_stable, C134_one_thread, C134_threads_refuted, C134_bounds_refuted, C134_positive_refuted, C135_divergence, C135_PTdensity, C135_linear, C135_bounds, C136_constants, C136_harmonic_constants_refuted, C101_linear, C101_solid, C101_monotone, C101_channel_refuted, C101_plate_refuted, C101_primitive_refuted, C99_decides, C99_bounded, C99_sound, C100_limited, C100_unchanged, C100_extremum, C110_molar_masses, C110_molar_masses_refuted, C113_names, C113_names_refuted, C119_means, C119_total, C119_range, C119_bounds_refuted, C120_ghost_cells, C120_equal_cells, C120_ratio_refuted, C121_average, C121_distribution, C121_range, C121_admissible, C121_dimensions, C121_normal, C122_lower_side, C122_uniform, C122_upper_side_refuted, C122_closed, C123_stable_dt, C138_gauss_seidel, C138_gauss_seidel_harmonic, C138_last_equation, C138_masked, C138_jacobi, C138_normalize, C138_normalize_masked, C138_boxes, C139_restriction, C139_interpolation, C139_balance, C139_bilinear, C139_coefficients, C140_neumann, C140_compatible, C38_returned_partial, C38_bounded_below_partial, C38_throws, C38_nonnegative, C38_affine, C38_concave, C38_negative_residual_refuted, C38_nan_refuted, C38_concave_converges, C38_concave_halving, C91_radau_codes, C91_retry_undefined_refuted, C91_retry_autonomous, C91_retry_time_refuted, C91_cvode_feedback, C91_cvode_overshoot_refuted, C91_cvode_errors_refuted, C09_next_output_time, C09_shall_output_now, C09_due_at_next, C09_zero_frequency_undefined, C10_next_is_minimum, C127_value, C127_faces, C127_straight, C127_mirror, C127_scale_refuted, C128_half_step, C128_mirror, C129_inverse, C129_half_step, C129_straight, C129_cut_cells, C129_cut_cells_refuted, C146_bounds, C146_positive, C146_value_partial, C146_mean_refuted, C88_mass_fractions, C88_mass_fractions_kept, C88_empty_refuted, C88_mole_fractions, C88_get_mole_fractions_refuted, C88_pressure, C88_lanes, C88_lane_negative_refuted, C88_string, C88_string_duplicate_refuted, C88_string_unknown_refuted, C88_assign_refuted, C89_rates_conserve_energy, C89_cache, C89_maxdT_refuted, C89_maxdT_density_refuted, C117_same_flux, C117_cut_cells, C16_composite_conservation, C16_coarse_level_total, C16_register_of_fine_level, C153_covers, C153_tight, C153_coarse, C153_around, C124_linear, C125_straight, C125_order_refuted, C125_positive_refuted, C126_growth, C126_courant, C05_no_overshoot, C06_failed_steps_leave_no_trace, C06_retry_size, C07_failure_without_backup_ends_run, C08_output_only_when_due, C08_final_state_is_output, C08_output_once_partial, C08_output_once_refuted, C57_run_terminates, C57_unconditional_termination_refuted, C165_data, C165_single, C97_advance, C97_first_failure, C97_stable_dt, C97_level_hooks, C97_hierarchy_hooks, C97_post_failure_refuted, C01_split_time, C02_first_failure_stops, C02_observation_is_transparent, C03_time_reversible, C03_commuting_exact, C03_godunov_order, C03_godunov_not_reversible, C56_type_erasure_partial, C56_type_erasure_refuted, C32_sequential_partial, C32_sequential_refuted, C32_vectorised_partial, C32_vectorised_initialised, C32_vectorised_refuted, C160_riemann, C160_python, C160_ghost, C160_errors, C160_default, C12_observation_is_transparent, C12_every_level_advances_by_dt, C12_no_step_on_missing_levels, C13_reported_dt_is_stable_everywhere, C13_without_subcycling, C13_steps_are_stable, C14_error_in_coarse_units, C14_success_means_no_failure, C14_retry, C15_event_order, C15_event_order_with_regridding, C47_scalar, C47_volumes, C47_vectorised_partial, C47_agreement_partial, C47_long_rows_refuted, C47_other_directions_refuted, C47_zeros_refuted, C69_cut_cells, C147_min, C147_initial_refuted, C147_mean_partial, C147_ghosts_refuted, C147_tiles_refuted, C147_level_refuted, C148_stable, C148_stable_every, C148_stable_refuted, C162_alone, C162_same, C162_others, C162_restart, C17_update_cells, C17_update_conserves, C17_forward_integrator, C18_update, C43_call, C43_klein_since, C43_demo_since, C43_switch_since, C43_demo_refuted, C43_deflagration_refuted, C44_schedule, C44_negative_offset, C154_wall, C154_levels_refuted |
| EFN | C84_no_source, C84_round_tube_refuted, C152_sign, C152_side, C152_depth_partial, C152_distance_partial, C152_distance_refuted, C48_statistics, C48_order, C48_gather_partial, C48_gather_refuted, C92_jump_conditions, C92_compression, C92_head_on_refuted, C93_mixture_outflow, C93_mixture_refuted, C145_steady, C145_positive_partial, C145_positive_refuted, C27_water_height, C33_primitive_roundtrip, C33_self_consistent, C33_complete_roundtrips, C33_conservative_roundtrip, C33_positive_pressure, C33_masked_lanes, C34_reflection_commutes, C37_ordered_partial, C37_enclosing_refuted, C51_distance, C51_sign, C51_zero, C51_component, C51_exterior, C51_degenerate, C51_flip, C52_rotate, C52_revolution, C52_halfspace, C36_consistent_lane, C36_consistent_scalar_partial, C36_consistent_larrouturou_partial, C36_wrong_sign_refuted, C36_three_dimensions_refuted, C36_agree_partial, C36_pressure, C62_scalar_partial, C62_vectorised_partial, C62_three_dimensions_refuted, C62_mach_number_refuted, C63_mass_fractions, C63_scalar_refuted, C68_vectorised, C68_scalar_right_partial, C68_scalar_left_partial, C41_exchange, C41_rows, C41_cold_refuted, C41_creation_refuted, C70_lower_partial, C70_upper_partial, C70_defined, C70_compression_refuted, C70_mirror_partial, C70_mirror_refuted, C72_signals_partial, C72_signals_refuted, C128_uniform, C128_contact, C128_carried, C128_cut_cells, C128_closed_refuted, C128_positive_refuted, C129_uniform, C129_contact, C129_cut_flux, C129_versions_partial, C114_primitive, C114_characteristics, C114_lanes, C114_mach_refuted, C115_no_pressure_gradient, C115_refuted, C115_density_refuted, C115_scalars_refuted, C116_positive, C116_refuted, C117_uniform, C118_mirror, C124_stages, C124_uniform, C125_mirror, C125_diffusion, C125_friction, C126_contact, C126_stable_refuted, C79_entropy_solution, C79_dry, C80_signals, C81_dry_exception, C81_stuck_refuted, C82_consistent, C82_momentum_flux_refuted, C82_godunov_water, C149_inside, C149_axis_partial, C149_axis_refuted, C130_state, C130_patch, C130_mixture, C130_normal_velocity_refuted |
| F | C83_areas, C58_copy_partial, C58_copy_can_be_queried_refuted, C106_rows, C143_levels_refuted, C143_tube_probes_refuted, C91_cvode_end_time, C165_coordinates, C164_table, C164_keeps, C164_restart, C164_no_file, C164_directory, C149_file, C149_file_refuted, C18_chunked_row, C18_sequential_fluxes, C18_numeric_fluxes |

## Parts of the code which are modelled

* Driver: `RunSimulation.hpp`, `output/*` (OutputAtFrequencyOrInterval, MultipleOutputs, OutputFactory, BasicOutput),
  `TimeStepError.hpp`, `split_method/*`.
* Solvers: `SubcycleFineFirstSolver`, `NoSubcycleSolver`, `DimensionalSplitLevelIntegrator` (order of calls, refluxing),
  `AMReX/IntegratorContext.cpp` (time points, cycles, flux registers, fine-coarse corrections), `PatchHierarchy` and
  `GriddingAlgorithm` (only time points, cycles, levels).
* Arrays: `core/mdspan.hpp`, `PatchDataView.hpp`, `ForEach.hpp`, `StateRow.hpp`, `State.hpp`, `StateArray.hpp`,
  `StateUtil.hpp`, `Equation.hpp` (Subview, VarNames), `AMReX/ViewFArrayBox.hpp`.
* Methods: `HyperbolicPatchIntegrator.cpp`, `AMReX/TimeIntegrator.cpp`, `flux_method/{FluxMethod,GodunovMethod,HllMethod,
  Gradient (component-wise), MusclHancockMethod (parts)}`, limiters, `perfect_gas/HllemMethod.hpp`,
  Einfeldt signal velocities, Burgers, Advection, ShallowWater (HLL path), PerfectGas, PerfectGasMix (parts).
* Cut cells: `cutcell_method/KbnStabilisation.cpp`, `AMReX/cutcell/TimeIntegrator.cpp` (first version),
  `AMReX/cutcell/FillCutCellData.cpp`.
* Source terms and control: ignition delay and Arrhenius kinetics, `PlenaControl`, pressure valve boundaries.
* Boundary conditions: reflective, transmissive, constant, mass flow.  Tagging: TagBuffer, GradientDetector, TagCutCells.
* Infrastructure: counters, timers, pool allocator, polygon/union/rotation/half space geometry, Newton iteration.
* `perfect_gas/ExactRiemannSolver.hpp` (scalar versions; the packs call them lane by lane), exact Riemann
  solver of `ShallowWater.cpp`.
* Tubes: `AMReX/AxialTimeIntegrator.hpp`, `AMReX/AxialSourceTerm.cpp` (one level, the reactor as density/temperature).
* `AMReX/IgniteDetonation.cpp` (schedule, measurement, temperature ramp; the chemistry is an arbitrary function).
* `FlameMasterReactor.cpp` temperature iteration (setEnergiesHOrU, SetInternalEnergyArray; energy and heat capacity are arbitrary functions).
* `FlameMasterReactor.cpp/.hpp` composition, pressure, cached thermodynamic data, right-hand side of the chemistry, Advance (the ODE solver is an arbitrary function), the cell update of `KineticSourceTerm.cpp`, completion of `IdealGasMix.cpp` (mechanisms without steady state species).
* `RadauSolver.cpp`, `CVodeSolver.cpp`: control flow of integrate (the Fortran routine and CVODE are arbitrary functions).
* `ShockMachnumber.hpp`, `MachnumberBoundary.hpp` (ExpandState), `PerfectGasMix.hpp` (SetIsentropicPressure, SetVelocity, TotalEnthalpy), `EulerEquation.hpp` (generic expansion), `IsentropicPressureExpansion.hpp` (ExpandState), both `IsentropicPressureBoundary.cpp` (expansion only; the reactor's isentropic pressure change is represented by the enthalpies before and after; filling of the cells is not modelled).
* `DiffusionSourceTerm.hpp` (AdvanceLevel, ComputeDiffusionFlux, ComputeStableDt, copying) for one row of cells.
* `src/AMReX/cutcell/AxiSymmetricSourceTerm.cpp` (AdvanceLevel per cell; boost::odeint's runge_kutta4 and integrate_const from their documentation).
* `SplitSystemSourceLevelIntegrator.hpp` completely (levels and sub-cycles, which are only passed on, are left out).
- `EmbeddedModel.v`: `PreAdvanceHierarchy` (one cell) and `ComputeBoundaryFlux` of `include/fub/cutcell_method/KbnStabilisation.hpp`, `GetBoundaryNormal` of `src/CutCellData.cpp`. Not modelled: the loops over cells, rank 1.
- `MdLimiterModel.v`: `src/cutcell_method/AnyMdLimiter.cpp` (`SolveLinearOptimizationProblem`, `IsNonSingular`, `IsConnected`, `LinearOptimizationLimiter<2>`). Not modelled: `UpwindMdLimiter`, `NoMdLimiter`, `AnyLimiter` (type erasure), accesses outside of the patch.
- `MdGradientModel.v`: `include/fub/cutcell_method/MdGradients.hpp` in two dimensions. Not modelled: the minimiser Eigen picks for dependent rows, accesses outside of the patch.
- `HGridModel.v`: `ApplyGradient`, `ReconstructRegularStencil`, `IntegrateCellState` (11 arguments) of `include/fub/cutcell_method/HGridReconstruction.hpp`; `HGridReconstruction2.hpp` (the two stencils); `ComputeBoundaryStates` of `MyStabilisation.hpp`; `src/cutcell_method/MyStabilisation.cpp`; `GetAbsoluteUnshieldedCentroid`, `Centroid` of `src/CutCellData.cpp`; `TimeIntegrator2` (one cell). Not modelled: three dimensions, the clipping of polygons, `FindPressure`, the first version of the stencils, `IntegrateInteriorCellState`.
- `MechanismModel.v`, `MechBurke.v`, `MechZhao.v`, `MechGri.v`, `MechAramco74.v`, `MechAramco91.v`: `ComputeProductionRates`, `GetLindRateCoeff`, `GetPlogRateCoeff`, `getMolarMass`, `getSpeciesNames` of the five mechanisms under `src/equations/ideal_gas_mix/mechanism`; the tables are generated from the source text by a script that is not part of the trusted base in the sense of the kernel, but has to be believed (each line cites its source line). Not modelled: their thermodynamic data and transport coefficients, TChem.
- `ReconstructModel.v`: `flux_method/Gradient.hpp` (conservative, primitive and characteristic gradients of central differences), `flux_method/Reconstruct.hpp` (all three reconstructions and `ReconstructInvers`), `flux_method/MusclHancockMethod2.hpp` (scalar and cut-cell stencils; `ComputeStableDt` delegates to the base method and is not modelled).
- `MultiBlockModel.v`: `multi_block/MultiBlockBoundary(2).cpp`, `MultiBlockBoundary2.hpp`, flux averages, time step, renewal of ghost data and copies of `MultiBlockIntegratorContext(2).cpp`. Not modelled: MPI communication itself, the valves of the plenum boundaries, completion of IdealGasMix states by Cantera tables, levels of refinement beyond the refined boxes.
- `Rk3Model.v`: `ThirdOrderRungeKuttaMethod.hpp` for one state per face (the array versions repeat the same operations per lane). Not modelled: the masked versions, which throw.
- `PrimMusclModel.v`: `perfect_gas/MusclHancockPrimMethod.hpp` and `MusclHancockCharacteristicMethod.hpp` without their `ComputeStableDt`, which call HLLEM. The variants for `IdealGasMix` are not modelled (they complete states with the reactor).
- `TurbineModel.v`: the ghost states of `PressureOutflowBoundary.cpp`, `PressureOutflowBoundary2.cpp`, `TurbineMassflowBoundary.hpp`, `TurbinePlenumBoundaryCondition.cpp` and the loop of the first; parts of `PerfectGasMix.cpp`. `boost::math::tools::bisect` is any bracketing root finder. Options, logging and the loops of the other files are not modelled.
- `LowMachModel.v`: `CompressibleAdvection.cpp` (flux, stable time step), `BK19LevelIntegrator.cpp` (averages, Euler steps, complete step, initial projection) and the stencils of `MLNodeHelmDualCstVel_2D_K.cpp` for two dimensions, one periodic level without masked nodes. The linear solver MLMG is any function with a bound on its residual. Multigrid transfer, Dirichlet boundaries and debug output are not modelled.
- `MultigridModel.v`: the two-dimensional kernels of `MLNodeHelmDualCstVel_2D_K.cpp` and `MLNodeHelmDualCstVel_K.cpp` (smoothers, restriction, interpolation, averaging, walls). Not modelled: the cycle of AMReX's MLMG, the bottom solver, the interfaces between refinement levels, three dimensions, GPU branches.
- `Hdf5Model.v`: two dimensions of `WriteHdf5Impl.cpp` (both versions), `GatherStates`, `WriteToHDF5`, the constructors of `WriteHdf5` and `LogProbesOutput` as far as files and coordinates are concerned. Not modelled: rounding of the sum over ranks, `/fields` and attributes other than `xlower`, failures inside of the HDF5 library, strings of paths, `Hdf5` errors other than missing data sets.
- `FeedbackModel.v`: `AverageState.hpp` and `PlenaControlFeedback.hpp` in two dimensions, one fab per patch and component, the sum over ranks without rounding; species other than the first and the output are not modelled.
- `ProfileModel.v`: `InterpolateFrom1d.cpp`, without the HDF5 calls and without the complete state made from the primitive values; `lower_bound` for ordered positions.
- `ThreadsModel.v`: `OmpLocal`, `GetInnerBox`, `GetMeanValueInBox` (two dimensions, one component), `MultiBlockSourceTerm` (fixed level) and the choice of the block in `MultiWriteHdf5`. Passes of a parallel loop are atomic on the copy of their thread.
- `TubeModel.v`: `ExpandTube.cpp` over the reals; reading of numbers from a line is any function; opening of the file is not modelled.
- `DebugModel.v`: `DebugSnapshot`, `Partitions_`, `GatherFields`, names and directories of `DebugStorage`; values of components are of any type; plot files, node averages (an AMReX function) and refinement ratios are not modelled.
- `ConeModel.v`: `ConeIF::ComputeDistanceTo` over the reals; the distance of machine epsilon is the one of double.
- `RegionModel.v`: `BoxWhichContains`, `GetCoarseGeometry`, `DomainAroundCenter`; the part of `amrex::Geometry` with the cell size and cell centers is modelled as documented in AMReX.
- `WallModel.v`: `ReflectiveBoundary2` for one patch; reflection and states are arbitrary.
- `LogModel.v`: `InitializeLogging` and `FormatLogs_`; the contents of the prefix, the creation of directories and boost's sinks are not modelled, sorting is any function that sorts, number formatting is arbitrary.
- `RegularModel.v`: the constructor of `AllRegularIndexSpace`, `getLevel` and `BuildRegularSpace`; AMReX's levels themselves are not modelled (whether they can be built is an arbitrary function), int is unbounded.
- `InflowModel.v`: `MassflowBoundary` for embedded geometries: `TotalVolume`, `AverageState` and the ghost state; simplified to a gas with constant gamma (the reactor's ODE is replaced by its exact solution); the cells that are filled are not modelled.
- `RangeModel.v`: `GetCellsAndFacesInStencilRange` and the loop over tiles of `FluxMethodAdapter::ComputeNumericFluxes`; the flux function is arbitrary.
- `OptionsModel.v`: `ParsePythonScript` (after the run of the script), `ToMap`, `GetOptions`, `GetOptionOr` (also for directions, vectors and boxes) and `ReadAndBroadcastFile` with a model of MPI_Bcast in which every process waits for all others; Python and pybind11's conversions are not modelled.
- `StartModel.v`: cut cell `RiemannProblem::InitializeData`, both `PythonData::InitializeData`; the reactor is reduced to mass fractions, temperature and density, Python and the conversion of mixtures are arbitrary partial functions.
- `FixedModel.v`: both AMReX `ConstantBox::TagCellsForRefinement` with `RefineToLevel` and the SAMRAI one; box operations of the libraries are modelled from their documentation, integers do not overflow.
- `TubeIgniteModel.v`: `MultiBlockIgniteDetonation` (both constructors, `AdvanceLevel`, `serialize`); of a tube only levels, time points, equivalence ratios and whether it was ignited.
- `CompleteModel.v`: `CompleteFromConsFn` with all execution tags and the free `CompleteFromCons` for views; the equation's own function is arbitrary, lanes are independent of each other.
- `TableModel.v`: `ControlOutput` of PlenaControlOutput.cpp (constructor, `CreateHdf5Database`, `WriteHdf5Database`, both call operators, `GetFieldMap`) on rank 0; the HDF5 library is reduced to growing lists.
- `SlabModel.v`: index arithmetic of `GatherStates`, of the coordinates in `PerfectGasProbesOutput` and of the HDF5 datasets it writes; one process, which cells contain a probe is left open.
- `CopyModel.v`: copy constructor of `PatchLevel` and its constructor from a data description; arrays of AMReX are reduced to metadata and values.

## Parts which are not modelled

AMReX and SAMRAI themselves (fill patch, MPI, regridding decisions, I/O formats), the MLMG solvers and BK19 integrators, the
thermodynamic data and transport coefficients of the chemistry mechanisms, FlameMaster/TChem reactors, ODE solvers, HDF5 and plot file output, program options and logging,
multi block coupling, polygon clipping for the h-grid stencils, mass flow and turbine
boundary conditions of the cut cell code, examples.

## Findings in the code

Each of the following is a theorem of the model (`_refuted` unless named otherwise).

* C08: after a failed step the same state can be output twice.  C57: without progress of the solver a run need not end.
* C54: with four or more levels a regrid in the middle of a coarse step sets the clock of level 1 back
  (IntegratorContext.cpp:292-345); RemakeLevel resets the cycle numbers.  C58: a copied context must not be queried before
  PreAdvanceHierarchy.
* C56: Strang splitting with three operators behaves differently behind the type erased interface.
* C20, C21, C24, C25, C59: sub views and slices of empty ranges permute the extents; ForEachRow does not end for zero width;
  `==` of layout_stride ignores the strides; SliceLast is wrong for layout_right.
* C32: the sequential stable time step leaves out the last stencil; the vectorised tail uses uninitialised mask rows.
* C35: rotation between antiparallel normals in 3d is a point reflection.
* C36, C62, C63, C68: HLLEM – wrong sign of scalar fluxes for negative mass flux, unassigned components in 3d, wrong velocity
  component in the vectorised 3d version, missing Mach number factors.
* C37, C72: Einfeldt speeds need not enclose both velocities; scalar and vectorised signals of the gas mixture differ.
* C38: Newton's iteration returns values with a residual below minus the tolerance, and NaN, without notice.
* C77: a Newton step which hits zero pressure exactly (gases receding with Mach number 1/gamma) stays there; the exact Riemann
  solver then continues with a vacuum state.
* C81: likewise for two streams of water which recede with Froude number 1: the middle height is 0.
* C82: ShallowWater's Flux takes the momentum for the velocity; Godunov's flux is not the flux of the exact solution.
* C41: Arrhenius kinetics changes cold gas and creates fuel.  C42: negative rotor energy gives NaN speed.
* C43: opening times survive interruptions; the deflagration valve's time difference is always zero.
* C45, C46, C47: tag buffers are half open (2d), out of bounds (1d), tag around untagged cells (3d); the vectorised gradient
  detector is right for the first pack of each row only.
* C48, C49, C50: gathered statistics, move assignment of running timers and the pool allocator are wrong.
* C53 (`C53_corner_wrong_order`): corners keep stale data when conditions are applied in the wrong order.
* C55: MakeView with more layers of cells in the unused directions takes vector components from wrong cells
  (ViewFArrayBox.hpp:197-210).
* C67: covered lanes in mixed packs get a regular update (TimeIntegrator.cpp:84,151-154).
* C70: the mass flow boundary misses the required flow for compressing gas; sign error in the upper threshold.
* C84: AxialSourceTerm is given a diameter but uses D'/D instead of A'/A: in a round tube the source is half of what it should be.
* C85: the default offset 0 of IgniteDetonation is ignored (last ignition time starts at numeric_limits<double>::min() instead of
  lowest()); late ignitions are made up for in quick succession.  C86: an ignition sets the velocity to zero
  (CompleteFromReactor is called without velocity).
* C87: the temperature iteration accepts energies below that of 0 K and returns a negative temperature.
* C88: mass fractions without a positive entry are accepted and give an empty mixture.
* C88: GetMoleFractions returns concentrations, not mole fractions.
* C88: SetMassFractionsArray without mask uses absolute values where all other setters clip negative values to zero.
* C88: a repeated species name in the string gives mass fractions that do not sum to one; an unknown name throws after the old mass fractions were erased.
* C88: assignment of a reactor does not assign the state used for packs.
* C89: after Advance the cached enthalpies are those of the last evaluation of the right-hand side, so energies read afterwards (and the energy stored by the kinetic source term) belong to another temperature.
* C89: AdvanceAndFindMaxdT never updates its old temperature, and does not compute concentrations from the mass fractions as Advance does.
* C91: the retry of RadauSolver after "step size becomes too small" passes the address of the system object where the callback expects IntegrateData_ (undefined behaviour), and integrates [t0, (t0 + dt) / 2] twice.
* C91: CVodeSolver ignores all return codes (a failing step with feedback loops forever) and with feedback returns the state of the first step beyond t0 + dt.
* C92: the velocity of the given state enters through its norm: the jump conditions fail for flow against or oblique to the normal.
* C93: SetIsentropicPressure of PerfectGasMix already accelerates the gas; the generic expansion then counts the kinetic energy twice, and the expansion at embedded boundaries does not accelerate at all (for every efficiency). It keeps partial densities, so mass fractions change, and turns every flow into the positive first direction.
* C93: the one-dimensional mixture boundary reverses outflow against the same or a higher pressure, and is wrong for lower boundaries.
* C93: the perfect gas version divides by the squared norm instead of the norm of the velocity (NaN at rest).
* C93 (not modelled): in FillBoundary of the same file the inner `state` shadows the outer one and is passed to its own initialiser; the mixture version at embedded boundaries sets the outer pressure before the isentropic change, which then does nothing.
* C94: the density uses the exponent 1 / (gamma + 1) instead of 1 / (gamma - 1); the velocity is positive also at lower boundaries.
* C95: ComputeStableDt returns the largest double although the explicit step amplifies alternating velocities beyond dx^2 rho / 2 nu.
* C95: copy construction and assignment do not copy the options; copies run with the default options.
* C96: std::min(dt, r / u) is negative for flow towards the axis and integrate_const then makes no step: the source term is silently skipped for half of all flows.
* C96: integrate_const makes no final partial step: for dt between r / u and 2 r / u only r / u is integrated.
* C96: the right-hand side of the partial densities contains rho twice (U[s] is already a density): mass fractions are not kept and one step can make a partial density negative.
* C97: PostAdvanceLevel discards the Result of the source term's hook: its failure is reported as success.
- C98: a cut cell whose gas leaves the wall with the speed c/gamma makes `PreAdvanceHierarchy` fail (assertion on the middle pressure, which the iteration returns as 0).
- C100: `IsConnected` compares n(xJ - xI) with n xB, i.e. the centroid of the neighbour relative to that of the cell with the centroid of the wall relative to the middle of the cell; for a small cut cell whose centroid is far from the middle a neighbour in front of the wall can be taken as hidden, or a hidden one as visible. C100 is stated with the test of the code.
- C101: the comparison given to `std::sort` in `MdGradients::ComputeGradients` is reflexive and not total (two fractions must both be larger); a closed face towards a cell with much gas can be sorted before open faces. At a plate thinner than a cell an assertion fails (without assertions the gradient is computed across the plate). In a channel one cell wide the assertion on the directions of the two open faces fails.
- C101: `MdGradients::ComputeGradients` limits the n-th component of the gradient with the n-th component of the complete state. For gradients of primitive variables the velocity is compared with the momentum.
- C102: `GetAbsoluteUnshieldedCentroid` ignores the closed part of the face.
- C103: the slope behind the wall is that of the mirrored function, but its normal momentum is not reflected; at the wall the second order stencil does not see the gas at rest relative to the wall.
- C104: lines 341-342 of `HGridReconstruction.hpp` add the x derivative to the y and z derivatives. `ComputeBoundaryStates` ignores that `IntegrateCellState` returns false and stores the state of the previous cut cell.
- C106: `MyStab_ComputeStableFluxComponents` has no term for the doubly shielded part; `TimeIntegrator2` asserts that volume and face fraction agree if the two face fractions do.
- C110: `Zhao2008Dme` gives HCCOH the molar mass 60.18 (42.04 would be right), so its reactions lose or make mass; helium weighs 20.18 in `Zhao2008Dme` and both Aramco mechanisms. The mechanisms use the gas constant 8314.34 in their rates while the reactor uses 8314.462175.
- C111: the broadening factor of C2H4 + H (+M) = C2H5 (+M) becomes negative near 5000 K in the Aramco mechanisms and `pow` of it is NaN; the rates of all species of that reaction are lost.
- C113: names with trailing blanks in `Gri30` ("O ", "H ", "HO2 ") and `Zhao2008Dme` ("OH ", "CH2HCO ", "CH3HCO ", "C2H4OH "), a truncated name in `AramcoMech_DMEonly_74spec`: they cannot be set by their formula.
- `Burke2012` replaces a third body concentration <= 0 by p / (R T); the other mechanisms test isinf(conc), which never holds.
- C114: `PrimitiveReconstruction` ignores the reference Mach number in the momentum equation; `CharacteristicsReconstruction` scales with 1 / MaSq where `CharacteristicsGradient` uses sqrt(MaSq); its array version leaves the factor out.
- C115: in `ReconstructInvers` the coefficient B of the quadratic equation has a wrong sign (`+ tau * drho * (uL - eta * du)`), passive scalars are computed with `+ lambda * u`, and with drho = 0 the quadratic formula divides by zero. The function is not called in the repository.
- C116: the reconstruction in primitive variables can give a negative pressure (and NaN as speed of sound) in rarefactions although the CFL condition holds; nothing falls back to first order.
- C119/C120: `InterpolateStates_Greater` reads `src[src.size()]` (with weight 0) whenever the coarse cells end with the fine ones, which is always so for integer ratios.
- C121: `ReduceTotalVolume` and `IntegrateConserativeStates` use the x index whatever the direction of the connection; the buffers have the shape of the direction.
- C122: `GetBoundary` uses the largest cell index as face index for side 1; the face of the connection has the next index. A closed connection hands over a momentum flux of 0 instead of the pressure.
- C123: `ComputeMultiBlockBoundaryData` zips all connections with the conditions of one block; the copy constructor of the second context bounds the plena by the number of tubes.
- C125: `CellToEdge` uses weights which are neither those for point values (9/16, -1/16) nor for means (7/12, -1/12); the method is of second order in space.
- C126: `ComputeStableDt` allows Courant number 1 and ignores friction; the method is unstable above 0.577. The masked versions of `ComputeNumericFlux` and `ComputeStableDt` throw "Not implemented yet.", so the method cannot be used with cut cells.
- C127: the limiter of `MusclHancockPrim` compares with the absolute number 1e-12.
- C128: `ComputeNumericFlux` for cut cells returns without writing the flux if all faces of a pack are closed; otherwise closed faces get zero. The scalar versions throw. Face densities may be negative (only an assertion checks them).
- C129: `ComputeSlopes` for cut cells masks only `amplitudes_left`; `amplitudes_right` enters unmasked, which is harmless only for limiters with limiter(0, x) = 0.
- C130: `FillBoundary` compares the norm of the whole velocity with the speed of sound, not the normal velocity.
- C131: `RequireMassflow_SolveExactRiemannProblem` uses the relations of the left wave also on the lower side of a domain; `FindLowerAndUpperBounds` halves the pressure and may step over the maximum of the mass flow.
- C132: `RequireMassflow_Jirasek::operator()` is noexcept but calls `NewtonIteration`, which may throw: std::terminate. A choked mass flow is not reported. Above the critical speed the density is limited but not the velocity.
- C133: the velocity of the entering gas is computed from the temperature of the tube instead of the plenum; passive scalars are not multiplied by the ratio of densities; `Msqinv` is inside the root in one case and outside in the other, and the kinetic energies are not multiplied by `Msq`.
- C134: `ComputeStableDt` updates `min_dt` in a parallel loop without protection (CompressibleAdvection.cpp:81). The slopes are not limited in spite of the name `LimitSlopes`. The time step looks at the mean of the two face fluxes, so P may become negative.
- C136: `k_vect` must have length one. After a step with alpha_p > 0, `InitialProjection` uses the coefficient `alpha` of that step. `mlndhelm_adotx_ha` has `sx` in place of `sy` twice and ignores `alpha` and `sigmacross`. `MLNodeHelmDualLinVel` does not override `setSigmaCross`.
- C137: the default Msq = 0 with alpha_p = 1 divides by zero in the explicit step. The ghost cells are not filled again before the second implicit step. The averages of P^(2-gamma) and P^(gamma-2) are not reciprocal. `ComputeKCrossM_` for three dimensions writes the third component into the second.
- C138: without harmonic averaging `Fapply`, `Fsmooth` and `normalize` dereference `sigmacross[0]` and `alpha` on every multigrid level, but `define` creates them for level 0 only (MLNodeHelmDualCstVel.cpp:98-107). With harmonic averaging the coarse operators ignore `alpha` and `sigmacross`. `mlndhelm_gauss_seidel_ha` has `sx` in place of `sy` in the same places as `mlndhelm_adotx_ha`.
- C139: without harmonic averaging only the x-version of the harmonic average is applied to the single coefficient, so the coarse operator prefers one direction.
- C140: `compRHS` fills the ghost cells of the velocity only over periodic boundaries; the caller has to set them to zero behind walls.
- C141: with cut cells `WriteHdf5UnRestricted` starts rank 0 with the volume fractions of the coarser level and adds all ranks: refined cells owned by other ranks show the sum of both. It also copies ghost cells of the volume fractions, so cells near patch boundaries are counted once per rank.
- C141: with cut cells `WriteHdf5RestrictedToBox` never fills volume fractions, so everything outside of the finest level is written as zero.
- C141: the attribute `xlower` of a restricted output is the corner of the domain. `/data` is declared with extents (nx, ny) but stored with x fastest; the scripts reshape it to (ny, nx).
- C142: `GatherStates` replaces single components that are exactly zero by the coarser level, for example the momentum of gas at rest.
- C142: `LogProbesOutput` uses `xs[i]` for every tube, so all tubes are probed at the coordinates of the first.
- C143: `LogProbesOutput` renames `tube_output_path_`, but writes to `{tube_output_path_}_{i}.h5`: old files are appended to.
- C143: `OpenHdf5Database` takes the size of the slab from the file; if the number of levels has changed it cuts off the array or reads behind it.
- C145: `right_face_boundary` is the column of left faces of the last cells (`faces_x.smallEnd(0)`), so the mass flow to the turbine is taken one cell in front of the boundary; if a patch starts at the last column its faces are added twice.
- C145: `ControlFeedback<2>` hands `p / rho / Rspec` to the control as temperature, while the equation of state and `ControlFeedback<1>` use `T = p / rho`.
- C145: the time step of the turbine plenum is not limited: if the turbine takes more than 1/gamma of the mass the pressure becomes negative.
- C144: cells of the box outside of all patches count as zero. Covered cells are included as well.
- C146: `lower_bound(xlo) + 1` skips the first sample of each cell; a cell with a single sample gets the value of the next sample, and a cell that contains the last sample gets only that one.
- C147: `GetMeanValueInBox` intersects with `fab.box()`, which includes ghost cells, once for every tile, so cells are counted several times; a level without cells in the box gives mean zero.
- C148: `MultiWriteHdf5` with a negative block number indexes its span with it.
- C149: the first and last cutting plane of `ExpandTube` are fixed to upwards and downwards and the second one uses the first fixed normal instead of the first segment, so a straight tube upwards is outside along its whole centre line.
- C149: `ReadPointsFromFile` ends with `resize`, which drops all values if the number of valid lines differs from the number of line ends; a last line without end is ignored.
- C151: `AddSnapshot` renames older snapshots to numbers that may be in use: the fourth snapshot with the same name leaves two snapshots in the directory with number 0, so one overwrites the other.
- C151: `MakeUniqueComponentNames` only looks at later names: a, a, a_0 become a_0, a_1, a_0.
- C152: `ConeIF::ComputeDistanceTo` measures to the centre of the base instead of the rim for points below the base and outside of its radius, to the apex for all points beyond the apex, and counts the axial distance twice beside the rim; the values are too large there, the signs are right.
- C154: `ReflectiveBoundary2` uses its section with the same indices on every level. On a refined level the section of an upper boundary lies inside of the domain, and the cells there are overwritten by reflected states.
- C155: `FormatLogs_` writes nothing for a message of one character (`size() > 1`).
- C155: only rank 0 renames an old log file; the log files of other ranks are truncated.
- C156: `getLevel` and `getGeometry` index beyond the end for a domain that is no level of the space; with 30 levels the number of ghost cells overflows int.
- C157: the cut cell `MassflowBoundary` exchanges `lambda` and `lambda_n` in the relation between the pressures: the ghost state has the wrong mass flow and total enthalpy unless the inner gas already has the required mass flow. The density of the mass flow is the inner one, too.
- C159: `GetOptionOr` for `IntVect`, `Box` and `RealBox` always wants three numbers, whatever the dimension; `Direction` is not checked.
- C159: `ParsePythonScript` checks the path on each process and `ReadAndBroadcastFile` throws on process 0 only: the other processes wait in MPI_Bcast.
- C161: SAMRAI `ConstantBox` compares the box with the indices of each level without refining it, so the tagged region moves towards the origin on finer levels (C161_samrai_refuted).
- C166: the copy constructor of `PatchLevel` reads the arena of `faces[2]` to copy `faces[1]`; for a two dimensional level with face data this is a null pointer.

Seen while reading, not covered by a theorem: scalar and array
CompleteFromKineticState of PerfectGasMix differ by Msq; ReconstructInvers divides by zero for drho = 0; the characteristic
reconstruction uses 1/Ma^2 in its scalar and 1 in its array version; SplitSystemSourceLevelIntegrator discards the result of the
source term; `dIgnitionDelay_dT` uses Y instead of max(Y, eps); `Complete::operator=(CompleteBase)` and `BasicView::operator=`
lack a return statement.
