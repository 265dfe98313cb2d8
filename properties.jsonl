{"id": "C01", "title": "Operator splitting spends exactly the requested time in every operator", "statement": "If no operator reports an error, SplittingMethod::Advance(dt, op1..opn) calls every operator for a total time of exactly dt, for Godunov, Strang and lumped Strang splitting and for any number of operators; Strang-type call sequences read the same forwards and backwards.", "quantifier": "every dt, every number of operators n >= 1, every splitting method shipped with the library", "why_tests_cant": "A test fixes n and dt; the nesting produces exponentially many calls as n grows and the claim is about all of them.", "anchors": ["include/fub/split_method/SplittingMethod.hpp:SplittingMethod::Advance,AdvanceRecursively", "src/split_method/GodunovSplitting.cpp", "src/split_method/StrangSplitting.cpp", "src/split_method/StrangSplittingLumped.cpp"]}
{"id": "C02", "title": "A failing operator stops the split step at once", "statement": "When an operator called by Advance fails, Advance returns exactly that operator's error, no operator is called afterwards, and the calls made before are a prefix of the calls of the error-free run.", "quantifier": "every failure point of every (stateful) operator, every number of operators, every splitting method", "why_tests_cant": "The failure can occur at any of unboundedly many call positions and depends on operator state.", "anchors": ["include/fub/split_method/SplittingMethod.hpp:AdvanceRecursively", "src/split_method/GodunovSplitting.cpp, StrangSplitting.cpp, StrangSplittingLumped.cpp"]}
{"id": "C03", "title": "Strang splitting is time reversible, Godunov splitting is exact only for commuting operators", "statement": "If each operator is an exact flow, advancing by dt and then by -dt with a Strang split method returns to the initial state; if the flows commute, every split method equals the composition of the full flows.", "quantifier": "every family of exact flows, every state, every dt, every number of operators", "why_tests_cant": "Quantifies over all flows and states; a test can sample one flow.", "anchors": ["src/split_method/StrangSplitting.cpp", "src/split_method/StrangSplittingLumped.cpp", "src/split_method/GodunovSplitting.cpp"]}
{"id": "C04", "title": "Dimensional split directions are a permutation which alternates", "statement": "For every non-negative cycle and sub-cycle number the list of split directions contains every coordinate direction exactly once, and consecutive cycles (or consecutive sub-cycles) use opposite orders.", "quantifier": "every rank, every cycle count, every sub-cycle index", "why_tests_cant": "Unbounded cycle counters.", "anchors": ["include/fub/split_method/SplittingMethod.hpp:MakeSplitDirections"]}
{"id": "C05", "title": "A simulation run never overshoots its final time and its time points increase strictly", "statement": "In RunSimulation every accepted step has a positive size, does not step over the final time nor over the next output time requested at its start, and the time point increases by exactly the accepted step size.", "quantifier": "every solver (any sequence of stable time steps, successes and failures), every option set, every output schedule", "why_tests_cant": "The solver is arbitrary and histories are unbounded.", "anchors": ["include/fub/RunSimulation.hpp:RunSimulation"]}
{"id": "C06", "title": "Failed steps leave no trace", "statement": "With backups enabled, the sequence of accepted states produced by RunSimulation is obtained by applying only the successful AdvanceHierarchy calls; a failed attempt restores the exact state before the attempt and the retry uses a step not larger than cfl times the dt reported by the failure.", "quantifier": "every solver, every pattern of failures", "why_tests_cant": "Needs all interleavings of failures and successes.", "anchors": ["include/fub/RunSimulation.hpp:RunSimulation"]}
{"id": "C07", "title": "Without backups a failed step ends the run without output of the failed state", "statement": "If backups are disabled and AdvanceHierarchy fails, RunSimulation stops immediately and no output is made after the failure.", "quantifier": "every solver and every position of the failure", "why_tests_cant": "Any failure position in an unbounded history.", "anchors": ["include/fub/RunSimulation.hpp:RunSimulation"]}
{"id": "C08", "title": "Outputs are made only when due, and never twice for the same state", "statement": "Every output RunSimulation makes is for a state at which the output object wants output or at which the run has reached its final time or its maximal number of cycles; the same time point is never output twice.", "quantifier": "every solver, output object and failure pattern", "why_tests_cant": "Requires a failure directly after an output which a test is unlikely to schedule.", "anchors": ["include/fub/RunSimulation.hpp:RunSimulation"]}
{"id": "C09", "title": "NextOutputTime lies in the future and within one interval", "statement": "For a non-negative time t and positive intervals, NextOutputTime(t) is strictly greater than t, does not exceed t plus the smallest interval (up to the documented round-off tolerance), and no multiple of any interval lies strictly between t and the returned time minus the tolerance.", "quantifier": "every time point and every list of intervals", "why_tests_cant": "Real-valued inputs, unbounded lists.", "anchors": ["include/fub/output/OutputAtFrequencyOrInterval.hpp:NextOutputTime,ShallOutputNow"]}
{"id": "C10", "title": "A collection of outputs behaves like the union of its members", "statement": "MultipleOutputs wants output iff some member does, its next output time is the minimum over the members, and invoking it invokes exactly the members which want output, each once and in the order of registration; null members are ignored.", "quantifier": "every list of member outputs and every grid state", "why_tests_cant": "Unbounded member lists.", "anchors": ["include/fub/output/MultipleOutputs.hpp", "include/fub/output/OutputFactory.hpp"]}
{"id": "C11", "title": "Output registration: first registration of a name wins", "statement": "OutputFactory::RegisterOutput succeeds exactly when the name is not yet registered; afterwards MakeOutput(name) always uses the first registered maker, and names never registered yield no output.", "quantifier": "every sequence of registrations and lookups", "why_tests_cant": "Unbounded histories.", "anchors": ["include/fub/output/OutputFactory.hpp:RegisterOutput,MakeOutput"]}
{"id": "C12", "title": "Subcycling: every level integrates the same physical time", "statement": "When AdvanceHierarchy(dt) succeeds with the sub-cycling solver, level l has performed product-of-ratios(l) steps, each of size dt divided by that product, so every level advanced by exactly dt; all levels finish at the same time point.", "quantifier": "every number of levels, all refinement ratios >= 1, every dt", "why_tests_cant": "Unbounded depth and ratios.", "anchors": ["include/fub/solver/SubcycleFineFirstSolver.hpp:AdvanceLevel,GetTotalRefineRatio"]}
{"id": "C13", "title": "Subcycling: the reported stable dt is stable on every level", "statement": "If all local steps use dt <= ComputeStableDt(), then the step taken on each existing level is at most the stable time step of that level.", "quantifier": "every number of levels, ratios, and per-level stable time steps", "why_tests_cant": "All combinations of levels and stable steps.", "anchors": ["include/fub/solver/SubcycleFineFirstSolver.hpp:ComputeStableDt", "include/fub/solver/NoSubcycleSolver.hpp:ComputeStableDt"]}
{"id": "C14", "title": "A too-large time step error is reported in units of the coarsest level", "statement": "If a step fails on level l because the stable dt there is d, AdvanceHierarchy returns the error (d times total refinement ratio of l, level 0); retrying with that dt makes level l use exactly d. Nothing is applied after the failing operation.", "quantifier": "every level structure and failing position", "why_tests_cant": "The error crosses arbitrarily many recursion levels; double scaling would only show on deep hierarchies.", "anchors": ["include/fub/solver/SubcycleFineFirstSolver.hpp:AdvanceLevel"]}
{"id": "C15", "title": "Event order within a coarse step", "statement": "In a successful coarse step with sub-cycling, for each pair of coarse and next finer level the flux registers are reset before any of the finer steps, each finer step is completed before the coarse update, and after the coarse update exactly one flux correction, one conservative coarsening and one reconstruction happen, in this order, before the coarse data is published.", "quantifier": "every number of levels and refinement ratios", "why_tests_cant": "Unbounded recursion.", "anchors": ["include/fub/solver/SubcycleFineFirstSolver.hpp:AdvanceLevel", "include/fub/solver/NoSubcycleSolver.hpp:AdvanceLevel"]}
{"id": "C16", "title": "Conservation across refinement boundaries", "statement": "After a coarse step with sub-cycled fine steps, flux correction and conservative coarsening, the total conserved quantity on the composite grid changes only by the fluxes through the outer boundary.", "quantifier": "every number of levels and space dimensions, properly nested patch layout, refinement ratio, number of sub-cycles, arbitrary numeric fluxes and split steps", "why_tests_cant": "All fluxes, sizes and ratios; floating point tests only see round-off sized differences for the cases sampled.", "anchors": ["src/AMReX/IntegratorContext.cpp:AccumulateCoarseFineFluxes,ApplyFluxCorrection,ResetCoarseFineFluxes,CoarsenConservatively", "src/AMReX/TimeIntegrator.cpp"]}
{"id": "C17", "title": "The conservative update conserves", "statement": "HyperbolicPatchIntegrator::UpdateConservatively changes the sum of every conserved component over a patch by exactly dt/dx times the difference of the two outermost fluxes, and leaves every cell outside the box untouched.", "quantifier": "every number of cells, every flux array", "why_tests_cant": "Any size and data.", "anchors": ["src/HyperbolicPatchIntegrator.cpp:UpdateConservatively"]}
{"id": "C18", "title": "Vectorised kernels equal their sequential counterparts", "statement": "Processing a row in SIMD chunks followed by a masked remainder writes the same value to every cell of the row as the scalar loop and touches no cell beyond the end of the row.", "quantifier": "every row length, every chunk width, every cell-wise kernel", "why_tests_cant": "Remainder handling depends on the length modulo the width.", "anchors": ["src/HyperbolicPatchIntegrator.cpp", "include/fub/flux_method/FluxMethod.hpp:ComputeNumericFluxes", "include/fub/StateArray.hpp:LoadN,StoreN"]}
{"id": "C19", "title": "Array layouts are injective and dense", "statement": "For layout_left and layout_right distinct in-range multi-indices are mapped to distinct offsets in [0, size) and every offset in that range is hit; strides are consistent with the mapping.", "quantifier": "every rank and all extents", "why_tests_cant": "Unbounded ranks and extents.", "anchors": ["include/fub/core/mdspan.hpp:layout_left,layout_right"]}
{"id": "C20", "title": "Sub views address the same elements", "statement": "For a box inside a patch, view.Subview(box)(i) refers to the same memory cell as view(i) for every index i in the box, the extents of the sub view are those of the box, and the sub view never leaves the memory range of the parent.", "quantifier": "every rank, every parent layout with positive strides, every sub box (also nested)", "why_tests_cant": "Unbounded dimensions and nested slicing.", "anchors": ["include/fub/PatchDataView.hpp:Subview,operator()", "include/fub/core/mdspan.hpp:subspan,layout_stride"]}
{"id": "C21", "title": "Slicing keeps the order of extents even for empty ranges", "statement": "subspan with range arguments yields extents equal to the lengths of the ranges, in order.", "quantifier": "every list of slice arguments including empty ranges", "why_tests_cant": "Empty ranges are a corner case.", "anchors": ["include/fub/core/mdspan.hpp:MakeSliceExtents2_"]}
{"id": "C22", "title": "Index box algebra", "statement": "Intersect is the set intersection of half-open boxes, Grow and Shrink are mutually inverse on boxes that are large enough, Contains decides set inclusion for non-empty boxes, and cells left/right of a face are adjacent.", "quantifier": "every rank, every box, every index", "why_tests_cant": "All integers.", "anchors": ["include/fub/PatchDataView.hpp:Intersect,Grow,Shrink,Contains,LeftTo,RightTo"]}
{"id": "C23", "title": "Loops visit every index exactly once, fastest index first", "statement": "ForEachIndex calls its function exactly once for each index of the box, in colexicographic order, and never for an index outside.", "quantifier": "every rank and box (also empty and with negative lower corner)", "why_tests_cant": "Unbounded sizes.", "anchors": ["include/fub/ForEach.hpp:ForEachIndex"]}
{"id": "C24", "title": "Row iteration covers the view exactly", "statement": "ForEachRow presents each row of the views exactly once, each row with all of its elements and no others, and terminates.", "quantifier": "every rank 1-3, all extents including zero and strided sub views", "why_tests_cant": "Zero extents and strides.", "anchors": ["include/fub/StateRow.hpp:ForEachRow"]}
{"id": "C25", "title": "Two strided mappings compare equal only if they address the same elements", "statement": "layout_stride mappings that compare equal map every index to the same offset.", "quantifier": "every pair of mappings", "why_tests_cant": "All strides.", "anchors": ["include/fub/core/mdspan.hpp:layout_stride::mapping::operator=="]}
{"id": "C26", "title": "HLL flux is consistent and conservative at the intermediate state", "statement": "For equal states the HLL flux equals the physical flux; the intermediate state and the flux satisfy both Rankine-Hugoniot relations at the two signal speeds; if all signals move in one direction the flux is the upwind physical flux.", "quantifier": "every pair of states, any flux function and any ordered signal speeds", "why_tests_cant": "Real-valued inputs.", "anchors": ["include/fub/flux_method/HllMethod.hpp:ComputeNumericFlux,SolveRiemannProblem"]}
{"id": "C27", "title": "The computed stable time step keeps water heights and densities positive", "statement": "If every cell has positive density and the time step is at most half the HLL stable time step, then after the conservative update with HLL fluxes all densities are still positive (no CFL tuning by the user beyond 1/2 necessary).", "quantifier": "every grid size, every state, every signal speed estimate enclosing the cell velocities", "why_tests_cant": "All states on grids of any size.", "anchors": ["include/fub/flux_method/HllMethod.hpp:ComputeNumericFlux,ComputeStableDt", "src/equations/ShallowWater.cpp:ShallowWaterSignalVelocities", "src/HyperbolicPatchIntegrator.cpp:UpdateConservatively"]}
{"id": "C28", "title": "Burgers: Godunov scheme obeys the maximum principle and is TVD", "statement": "With the exact Riemann solver and time steps not larger than the stable time step, new cell values lie between the minimum and maximum of the three old neighbours and the total variation of the solution does not increase, over any number of steps.", "quantifier": "every grid size, every initial data, every number of steps", "why_tests_cant": "Nonlinear property of all data; sonic points are measure-zero cases for random tests.", "anchors": ["src/equations/Burgers.cpp:ExactRiemannSolver<Burgers1d>", "include/fub/flux_method/GodunovMethod.hpp"]}
{"id": "C29", "title": "Advection: upwinding obeys the maximum principle and moves data exactly at CFL one", "statement": "With time steps not larger than the stable time step the advected values stay within the bounds of the neighbours, the total variation does not grow, and for CFL equal to one every cell takes exactly its upwind neighbour's value.", "quantifier": "every velocity, grid size, data", "why_tests_cant": "All real data.", "anchors": ["src/equations/Advection.cpp", "include/fub/flux_method/GodunovMethod.hpp"]}
{"id": "C30", "title": "Slope limiters are symmetric and stay in the TVD region", "statement": "MinMod and van Leer limited slopes are symmetric in their arguments, vanish at extrema, have the sign of the data, preserve linear data, and never exceed twice the smaller one-sided difference.", "quantifier": "every pair of one-sided differences", "why_tests_cant": "All reals; sign-change corner cases.", "anchors": ["include/fub/flux_method/MusclHancockMethod.hpp:MinMod,VanLeer,NoLimiter", "include/fub/flux_method/Gradient.hpp:MinModLimiter,VanLeerLimiter,CentralDifferenceGradient"]}
{"id": "C31", "title": "MUSCL-Hancock reconstruction introduces no new extrema and preserves constants", "statement": "Interface values reconstructed with limited slopes lie between the adjacent cell averages, and for constant data the MUSCL-Hancock flux is the physical flux of that constant state.", "quantifier": "every stencil, limiter and flux function", "why_tests_cant": "All data.", "anchors": ["include/fub/flux_method/MusclHancockMethod.hpp:ComputeNumericFlux", "include/fub/flux_method/Gradient.hpp"]}
{"id": "C32", "title": "The stable time step of a patch accounts for every stencil", "statement": "ComputeStableDt over a patch is not larger than the stable time step of any stencil in the patch (both in the sequential and in the vectorised version).", "quantifier": "every patch size and all states", "why_tests_cant": "An omitted last stencil only matters when that very stencil is the most restrictive one.", "anchors": ["include/fub/flux_method/FluxMethod.hpp:ComputeStableDt"]}
{"id": "C33", "title": "Perfect gas: conversions between state representations are inverse to each other", "statement": "Primitive -> complete -> primitive and conservative -> complete -> conservative round trips are identities for positive density, the complete state is always self-consistent (pressure, energy, speed of sound), and CompleteFromCons is idempotent.", "quantifier": "every state with positive density, every dimension, every gamma", "why_tests_cant": "All real states.", "anchors": ["src/equations/PerfectGas.cpp:CompleteFromCons,CompleteFromPrim", "include/fub/equations/PerfectGas.hpp:PrimFromComplete"]}
{"id": "C34", "title": "Reflection is an energy preserving involution", "statement": "Reflecting a state twice at the same unit normal restores it; kinetic energy, pressure, density are unchanged; the normal momentum changes sign and tangential momentum is unchanged.", "quantifier": "every state, every unit normal, every dimension", "why_tests_cant": "All real vectors.", "anchors": ["src/equations/PerfectGas.cpp:Reflect,Rotate"]}
{"id": "C35", "title": "Rotation to a boundary normal is a proper rotation mapping one normal to the other", "statement": "MakeRotation(a,b) for unit vectors is orthogonal with determinant one, maps a to b, and MakeRotation(b,a) is its inverse.", "quantifier": "every pair of unit vectors in 2d and 3d", "why_tests_cant": "The antiparallel case is a corner case.", "anchors": ["include/fub/ext/Eigen.hpp:MakeRotation"]}
{"id": "C36", "title": "HLLEM scalar flux agrees with its vectorised flux and is consistent", "statement": "For equal left and right states the HLLEM flux equals the physical flux, including transported scalars, independent of the flow direction, and the scalar and vectorised implementations agree.", "quantifier": "every state, flow direction, dimension", "why_tests_cant": "Sign-dependent branches.", "anchors": ["src/equations/perfect_gas/HllemMethod.hpp:ComputeNumericFlux"]}
{"id": "C37", "title": "Einfeldt signal speeds are ordered and enclose the cell velocities", "statement": "For positive densities, pressures and sound speeds the left signal speed is smaller than the right one, and both neighbouring flow velocities lie between them.", "quantifier": "every pair of admissible states", "why_tests_cant": "All real states.", "anchors": ["src/equations/perfect_gas/EinfeldtSignalVelocities.hpp"]}
{"id": "C38", "title": "Newton iteration never returns an unconverged value silently", "statement": "If NewtonIteration returns x then |f(x)| is at most the tolerance; otherwise it throws.", "quantifier": "every function, derivative, start value", "why_tests_cant": "Any function; sign of the residual matters.", "anchors": ["include/fub/NewtonIteration.hpp"]}
{"id": "C39", "title": "Cut cell fluxes: stabilised flux is a weighted average", "statement": "If the unshielded and shielded fractions of a face sum to one, the stabilised flux lies between the minimum and maximum of the regular and the two boundary fluxes; a uniform flux is preserved exactly; the vectorised and the scalar branch agree.", "quantifier": "every face, fractions and centroids in range, every row length", "why_tests_cant": "All geometries.", "anchors": ["src/cutcell_method/KbnStabilisation.cpp:ComputeStableFluxes_Row"]}
{"id": "C40", "title": "Ignition delay kinetics keeps mass fractions a partition of unity", "statement": "After a reaction step all mole fractions are non-negative, their sum is unchanged, product never decreases, and the temperature rises by Tdiff times the amount of fuel and radicals burnt.", "quantifier": "every composition, temperature, time step, reaction options with non-negative rates", "why_tests_cant": "All compositions.", "anchors": ["src/equations/perfect_gas_mix/IgnitionDelayKinetics.cpp:Advance_"]}
{"id": "C41", "title": "Arrhenius kinetics does nothing below the switch temperature", "statement": "Below T_switch composition and energy are unchanged; above it fuel never increases and the composition sum is preserved.", "quantifier": "every composition, temperature and time step", "why_tests_cant": "Unbounded repetition of steps accumulates drift.", "anchors": ["src/equations/perfect_gas_mix/ArrheniusKinetics.cpp:Advance_"]}
{"id": "C42", "title": "Gas turbine control stays within its operating range", "statement": "For every history of updates the rotation speed stays within [rpmmin, rpmmax], the compressor pressure always equals the characteristic curve at a speed within the range and is bounded by the configured pressure ratios, accumulated fuel never decreases for non-negative fuel flux.", "quantifier": "every sequence of UpdatePlena calls with arbitrary inputs", "why_tests_cant": "Unbounded histories.", "anchors": ["src/equations/perfect_gas_mix/PlenaControl.cpp"]}
{"id": "C43", "title": "Pressure valve boundary: an open valve always has an opening time", "statement": "Whenever the boundary lets gas flow in, an opening time point is recorded which is not later than the current time, and it is the earliest time since which the valve has been open without interruption; a closed valve reflects.", "quantifier": "every history of pressures and compressor states for each valve type", "why_tests_cant": "Arbitrary histories, hysteresis.", "anchors": ["include/fub/AMReX/boundary_condition/GenericPressureValveBoundary.hpp"]}
{"id": "C44", "title": "Air/fuel valve: fuel phases start on schedule", "statement": "Fuel injection never starts before the configured offset, successive fuel starts are scheduled exactly one interval apart, and fuel is switched off only because of high mean pressure.", "quantifier": "every history of times and mean pressures", "why_tests_cant": "Arbitrary histories.", "anchors": ["src/AMReX/boundary_condition/PressureValveBoundary.cpp:ChangeState_"]}
{"id": "C45", "title": "Tag buffer (2d) never removes tags and tags exactly the neighbourhood", "statement": "After buffering, a cell is tagged iff it was tagged before or lies within buffer width of a cell tagged before; nothing outside the patch is touched.", "quantifier": "every patch size, buffer width and tag pattern", "why_tests_cant": "In-place update: newly set tags might be picked up again (runaway growth).", "anchors": ["src/tagging_method/TagBuffer.cpp"]}
{"id": "C46", "title": "Tag buffer in 1d and 3d does the same as in 2d", "statement": "The 1d and 3d variants keep existing tags, only tag cells near tagged cells, and stay within the patch.", "quantifier": "every patch size, buffer width and tag pattern", "why_tests_cant": "Depends on patterns of tags.", "anchors": ["src/tagging_method/TagBuffer.cpp"]}
{"id": "C47", "title": "Gradient detection finds every steep neighbour pair", "statement": "A cell is tagged iff the relative difference to one of its neighbours in some direction exceeds the tolerance; existing tags are kept; vectorised and scalar versions agree.", "quantifier": "every row length and data", "why_tests_cant": "Chunk shifting only shows for rows longer than a chunk.", "anchors": ["include/fub/tagging_method/GradientDetector.hpp"]}
{"id": "C48", "title": "Counter statistics are correct", "statement": "min <= mean <= max, value equals count times mean, the variance is non-negative and zero iff all values agree, reset empties the counter, and the order of additions does not matter.", "quantifier": "every list of recorded values", "why_tests_cant": "Unbounded lists.", "anchors": ["include/fub/counter/Counter.hpp", "src/counter/Counter.cpp"]}
{"id": "C49", "title": "Every finished timer is recorded exactly once", "statement": "A running timer records exactly one measurement in its counter when destroyed; moved-from timers record nothing; no measurement is lost by moving timers.", "quantifier": "every sequence of timer creations, moves and destructions", "why_tests_cant": "All ownership histories.", "anchors": ["src/counter/Timer.cpp", "src/counter/CounterRegistry.cpp"]}
{"id": "C50", "title": "The pool allocator never hands out memory which is still in use", "statement": "Two allocations which are both live never return the same block.", "quantifier": "every sequence of allocate and deallocate calls", "why_tests_cant": "All histories.", "anchors": ["src/PoolAllocator.cpp:do_allocate,do_deallocate"]}
{"id": "C51", "title": "Signed distance to a polygon", "statement": "The absolute value of Polygon::ComputeDistanceTo is the Euclidean distance to the closed polyline (attained, and no point of any edge is nearer), and its sign is decided by the parity of edges crossed by a ray; the chunked evaluation considers every edge exactly once.", "quantifier": "every polygon with any number of vertices and every query point", "why_tests_cant": "Remainder handling and degenerate edges.", "anchors": ["src/geometry/Polygon.cpp"]}
{"id": "C52", "title": "Geometry combinators implement set operations", "statement": "The union of level sets contains a point iff some member does, inversion complements the interior, and rotation around a point moves the shape rigidly.", "quantifier": "every list of geometries and every point", "why_tests_cant": "All points.", "anchors": ["src/geometry/Union.cpp", "include/fub/geometry/Invert.hpp", "include/fub/geometry/RotateAroundPoint.hpp"]}
{"id": "C53", "title": "Reflective boundary mirrors interior cells into the ghost layer", "statement": "Each ghost cell receives the reflected state of its mirror image across the boundary face; mirror images lie inside the domain as long as the ghost width does not exceed the domain width; interior cells are not changed.", "quantifier": "every domain, ghost width, side and direction", "why_tests_cant": "All widths and indices.", "anchors": ["src/boundary_condition/ReflectiveBoundary.cpp", "include/fub/boundary_condition/ReflectiveBoundary.hpp"]}
{"id": "C54", "title": "Level time bookkeeping", "statement": "After each completed coarse step all hierarchy levels carry the same time point and each level's cycle counter has grown by its number of sub-steps; the published hierarchy time of a level only changes after its last sub-cycle.", "quantifier": "every number of levels and refinement ratios and histories", "why_tests_cant": "Unbounded.", "anchors": ["src/AMReX/IntegratorContext.cpp:PostAdvanceLevel,PostAdvanceHierarchy"]}
{"id": "C55", "title": "Adapter copies between buffers and states round-trip", "statement": "CopyToBuffer followed by CopyFromBuffer restores a state; storing a state at an index and loading it again gives the state and changes no other index.", "quantifier": "every state layout and index", "why_tests_cant": "All layouts.", "anchors": ["include/fub/State.hpp:CopyToBuffer,CopyFromBuffer,Load,Store"]}
{"id": "C56", "title": "Type erasure of a split method does not change its behaviour", "statement": "An AnySplitMethod constructed from a split method performs the same operator calls as the wrapped method, for every number of operators.", "quantifier": "every method, every operators, every state, every dt", "why_tests_cant": "Overload resolution differs per number of operators; needs all operator behaviours.", "anchors": ["include/fub/split_method/SplittingMethod.hpp:AnySplitMethod"]}
{"id": "C57", "title": "A simulation run terminates", "statement": "With backups enabled RunSimulation reaches its final time after finitely many iterations, provided stable time steps are bounded below and a retry with the time step reported by a failure succeeds.", "quantifier": "every solver with the stated contract, every option set, every failure pattern", "why_tests_cant": "Termination is not testable.", "anchors": ["include/fub/RunSimulation.hpp:RunSimulation"]}
{"id": "C58", "title": "Copies of a solver context", "statement": "A copy of an integrator context (as made for backups) carries the published times, cycle numbers and grids of all levels: it reports them after PreAdvanceHierarchy. (That it reports them immediately is false of the code.)", "quantifier": "every context state, number of levels and copy behaviour of the remaining members", "why_tests_cant": "All states a run can reach.", "anchors": ["src/AMReX/IntegratorContext.cpp:IntegratorContext(const IntegratorContext&),PreAdvanceHierarchy", "include/fub/RunSimulation.hpp:RunSimulation"]}
{"id": "C59", "title": "Component slices address the component's elements", "statement": "SliceLast(view, c) shows exactly the elements of the last index c: SliceLast(view, c)(i...) is view(i..., c). (True for views with layout_left or strides; false of the code for layout_right.)", "quantifier": "every rank, extents, origin, component and index", "why_tests_cant": "Finitely many shapes can be tested; the claim is about every shape and layout.", "anchors": ["include/fub/PatchDataView.hpp:SliceLast", "include/fub/core/mdspan.hpp:subspan"]}
{"id": "C60", "title": "Mixed static and dynamic extents", "statement": "An extents object with some static and some dynamic extents reports, for each rank, the static value if there is one and otherwise the matching constructor argument, in order; two extents compare equal exactly if all extents agree.", "quantifier": "every pattern of static and dynamic extents and every list of values", "why_tests_cant": "There are infinitely many patterns.", "anchors": ["include/fub/core/mdspan.hpp:extents"]}
{"id": "C61", "title": "MUSCL-Hancock advection is TVD, bounded and exact for linear data", "statement": "With a limited slope and time steps not larger than the stable time step, MUSCL-Hancock for linear advection keeps every new value within its old neighbours and never increases the total variation, over any number of steps; linear data are transported exactly.", "quantifier": "every velocity, limiter of the TVD region, grid size, data and number of steps", "why_tests_cant": "A property of all real data and of long runs.", "anchors": ["include/fub/flux_method/MusclHancockMethod.hpp:ComputeNumericFlux,ComputeStableDt", "src/equations/Advection.cpp"]}
{"id": "C62", "title": "HLLEM keeps contact and shear waves at rest exactly", "statement": "For two states with equal pressure and no velocity normal to the face, whatever the jumps of density, tangential velocity and transported scalars, the HLLEM flux is the pressure in the normal momentum component and zero in all others, in every dimension and with or without the treatment of Larrouturou.", "quantifier": "every pair of admissible states forming a resting contact/shear wave, every dimension and direction", "why_tests_cant": "An identity of real functions over all jumps; samples with zero tangential velocity do not see wrong coefficients.", "anchors": ["src/equations/perfect_gas/HllemMethod.hpp:Hllem::SolveRiemannProblem,ComputeNumericFlux"]}
{"id": "C63", "title": "Mass fractions keep their bounds under Larrouturou upwinding", "statement": "With the treatment of Larrouturou a conservative update whose new density is positive and in which not more than the mass of a cell flows out keeps every mass fraction within the bounds of the cell and its two neighbours, for flow in either direction.", "quantifier": "all states, dimensions, time steps and bounds", "why_tests_cant": "Maximum principles quantify over all data and both flow directions.", "anchors": ["src/equations/perfect_gas/HllemMethod.hpp:ComputeNumericFlux"]}
{"id": "C64", "title": "Cut cell face fractions partition the face", "statement": "The unshielded, left-shielded, right-shielded and doubly shielded fractions of a face are not negative and add up to the open fraction of the face (relative values to one); what is shielded from a side is exactly what the next face on that side does not continue; the result does not depend on the vector width.", "quantifier": "every triple of neighbouring open fractions, every row length and vector width", "why_tests_cant": "All real-valued geometries and all remainders of the vectorised loop.", "anchors": ["src/AMReX/cutcell/FillCutCellData.cpp:FillCutCellData"]}
{"id": "C65", "title": "Cut cell update is conservative and preserves a free stream", "statement": "Over any range of cells of a line with an embedded wall the volume-weighted total changes only by the fluxes through the two outer faces and by the wall fluxes; a uniform flux leaves every open cell unchanged.", "quantifier": "every line of cells with geometrically consistent fractions, every flux field, every range", "why_tests_cant": "Telescoping over arbitrarily many cells with arbitrary cut geometry.", "anchors": ["src/AMReX/cutcell/TimeIntegrator.cpp:UpdateConservatively_Row", "src/cutcell_method/KbnStabilisation.cpp"]}
{"id": "C66", "title": "Small cut cells do not restrict the time step", "statement": "One step changes an open cell by at most dt/dx times the spread of the fluxes around it, however small its volume fraction is.", "quantifier": "every geometrically consistent cell, every flux field and time step", "why_tests_cant": "The volume fraction can be arbitrarily small.", "anchors": ["src/AMReX/cutcell/TimeIntegrator.cpp:UpdateConservatively_Row"]}
{"id": "C67", "title": "Vectorised cut cell update agrees with the scalar one", "statement": "The update of a row does not depend on the vector width; covered cells hold zero afterwards.", "quantifier": "every row, every vector width, every pattern of covered cells", "why_tests_cant": "All positions of covered cells relative to the packs.", "anchors": ["src/AMReX/cutcell/TimeIntegrator.cpp:UpdateConservatively_Row"]}
{"id": "C68", "title": "HLLEM takes the upstream flux in supersonic flow", "statement": "If all signals of a Riemann problem move to the right (left), the HLLEM flux equals the physical flux of the left (right) state.", "quantifier": "every pair of admissible states, dimension, direction, reference Mach number", "why_tests_cant": "Continuum of states.", "anchors": ["include/fub/equations/perfect_gas/HllemMethod.hpp:HllemMethod"]}
{"id": "C69", "title": "Cut cell tagging finds exactly the cut cells", "statement": "TagCutCells sets the tag 1 on exactly those cells of the tag patch whose volume fraction lies strictly between 0 and 1 and keeps every other tag.", "quantifier": "every rank, every pair of tag and volume boxes, every volume fractions and previous tags", "why_tests_cant": "All index boxes (partial overlap, empty intersection) and all values.", "anchors": ["src/tagging_method/TagCutCells.cpp:TagCellsForRefinement_"]}
{"id": "C70", "title": "Mass flow boundary imposes the required mass flow", "statement": "The boundary state computed from an inner state and a required mass flow always exists, and the numerical (HLLE) mass flux between the boundary state and the inner state is the required mass flow per area, for the lower and for the upper boundary; mirroring the flow mirrors the boundary state.", "quantifier": "every inner state, required mass flow, area and side", "why_tests_cant": "The claim is an identity over all real velocities and densities; tests sample a few.", "anchors": ["src/AMReX/boundary_condition/MassflowBoundary.cpp:ComputeBoundaryState", "src/equations/ideal_gas_mix/EinfeldtSignalVelocities.hpp", "include/fub/flux_method/HllMethod.hpp:ComputeNumericFlux"]}
{"id": "C71", "title": "Transmissive and constant boundaries fill exactly the ghost cells beyond the boundary", "statement": "The transmissive condition gives every ghost cell beyond the boundary (corners included) the value the last domain cell of the same row had; the constant condition stores the given state there; no other cell changes and nothing outside of the patch is accessed.", "quantifier": "every domain, patch, ghost width, direction and side", "why_tests_cant": "All shapes and widths.", "anchors": ["src/AMReX/boundary_condition/TransmissiveBoundary.cpp", "include/fub/AMReX/boundary_condition/ConstantBoundary.hpp", "include/fub/boundary_condition/TransmissiveBoundary.hpp"]}
{"id": "C72", "title": "Scalar and vectorised signal speeds of the gas mixture agree", "statement": "For every pair of states the scalar and the vectorised signal speed estimate of the ideal gas mixture return the same interval.", "quantifier": "every pair of states with positive density", "why_tests_cant": "Equality for all states.", "anchors": ["src/equations/ideal_gas_mix/EinfeldtSignalVelocities.hpp"]}
{"id": "C73", "title": "Component numbers, index mapping and variable names agree with the order of the values", "statement": "For every equation the number of components is the number of values of a state; component number k is the value at position k of a buffer written by CopyToBuffer and every other number is rejected; IndexMapping numbers the components 0,1,2,... in this order; VarNames gives one name per component in this order, and all names differ when the variable names do.", "quantifier": "every list of depths (scalar, fixed and dynamic vectors), every state, every component number", "why_tests_cant": "all equations and depths; the tests use a few equations", "anchors": ["include/fub/StateUtil.hpp:GetComponent,GetNumberOfComponents", "include/fub/State.hpp:IndexMapping", "include/fub/Equation.hpp:VarNames"]}
{"id": "C74", "title": "Pointers and packs of cells agree with cell by cell access", "statement": "The pointers of Begin(view), advanced by n, load the state of the cell n positions behind the first one; LoadN fills lane j with cell j for j<n and leaves the other lanes, StoreN writes lane j to cell j for j<n and changes nothing else.", "quantifier": "every patch, part of a patch, equation, pack width and n <= width", "why_tests_cant": "all sizes and layouts", "anchors": ["include/fub/State.hpp:Begin,Advance,Load", "include/fub/StateArray.hpp:LoadN,StoreN"]}
{"id": "C75", "title": "The exact Riemann solver returns the entropy solution", "statement": "For every middle pressure which solves the pressure equation, the states which SolveRiemannProblem returns for all rays x = lambda t form a weak self-similar solution of the Euler equations with the given initial states: smooth parts satisfy the conservation laws, jumps the Rankine-Hugoniot conditions, entropy is not destroyed, density and pressure are positive; the interface version returns its value at x = 0. Such a middle pressure exists and is unique if and only if the two gases do not separate.", "quantifier": "all perfect gases, admissible left and right states, space dimensions, directions and rays", "why_tests_cant": "all real states and rays; the solution is a function of a continuous variable", "anchors": ["src/equations/perfect_gas/ExactRiemannSolver.hpp:SolveRiemannProblem,ComputeMiddleState"]}
{"id": "C76", "title": "Signal speeds of the exact Riemann solver are sharp bounds", "statement": "The signals of ExactRiemannSolver enclose the contact, the solution is equal to the left (right) state below the lower (above the upper) signal, and where a wave exists the solution differs from the initial state arbitrarily close to the signal.", "quantifier": "all perfect gases, admissible states and middle states which solve the pressure equation", "why_tests_cant": "all real states; sharpness is a statement about limits", "anchors": ["src/equations/perfect_gas/ExactRiemannSolver.hpp:ComputeSignals"]}
{"id": "C77", "title": "The middle state of the exact Riemann solver is computed to the tolerance", "statement": "ComputeMiddleState returns a pressure and velocity whose velocity differs from the exact one by half of the tolerance at most, or throws if the gases separate.", "quantifier": "all perfect gases and admissible states", "why_tests_cant": "convergence within the iteration limit for all real inputs", "anchors": ["src/equations/perfect_gas/ExactRiemannSolver.hpp:ComputeMiddleState", "include/fub/NewtonIteration.hpp:NewtonIteration"]}
{"id": "C78", "title": "Godunov's flux is consistent and is the flux of the exact solution", "statement": "For equal states the exact Riemann solver returns this state and Godunov's flux is the physical flux of it; for different states with an exact middle state the flux is the physical flux of the entropy solution at the interface.", "quantifier": "all perfect gases, admissible states, dimensions, directions, old contents of the output", "why_tests_cant": "all real states", "anchors": ["include/fub/flux_method/GodunovMethod.hpp:ComputeNumericFlux", "src/equations/perfect_gas/ExactRiemannSolver.hpp:SolveRiemannProblem"]}
{"id": "C79", "title": "The exact Riemann solver for shallow water returns the entropy solution", "statement": "For every middle height which solves the height equation there is a weak self-similar solution of the shallow water equations with the given initial states (conservation laws where it is smooth, jump conditions and no creation of mechanical energy at jumps, positive height) whose value at x = 0 is what SolveRiemannProblem returns. Such a middle height exists and is unique if and only if no dry ground appears between the states.", "quantifier": "all gravities g > 0, states with positive height, directions", "why_tests_cant": "all real states; the solution is a function of a continuous variable", "anchors": ["src/equations/ShallowWater.cpp:ExactRiemannSolver<ShallowWater>::SolveRiemannProblem,ComputeMiddleState"]}
{"id": "C80", "title": "Signal speeds of the exact shallow water solver are sharp bounds", "statement": "The signals enclose the middle velocity, the solution is the left (right) state below the lower (above the upper) signal, and where a wave exists the solution differs from the initial state arbitrarily close to the signal.", "quantifier": "all gravities, states with positive height, middle states which solve the height equation", "why_tests_cant": "sharpness is a statement about limits, for all real states", "anchors": ["src/equations/ShallowWater.cpp:ExactRiemannSolver<ShallowWater>::ComputeSignals"]}
{"id": "C81", "title": "The middle state for shallow water is computed to the tolerance", "statement": "ComputeMiddleState returns a state whose velocity differs from the exact one by the tolerance at most, or throws if dry ground appears.", "quantifier": "all gravities and states with positive height", "why_tests_cant": "convergence within the iteration limit for all real inputs", "anchors": ["src/equations/ShallowWater.cpp:ExactRiemannSolver<ShallowWater>::ComputeMiddleState", "include/fub/NewtonIteration.hpp:NewtonIteration"]}
{"id": "C82", "title": "Godunov's flux for shallow water is consistent and is the flux of the exact solution", "statement": "For equal states the exact Riemann solver returns this state and Godunov's flux is the physical flux; for different states with an exact middle state the flux is the physical flux of the entropy solution at the interface.", "quantifier": "all gravities, states with positive height, directions", "why_tests_cant": "all real states", "anchors": ["src/equations/ShallowWater.cpp:Flux,ExactRiemannSolver<ShallowWater>::SolveRiemannProblem", "include/fub/flux_method/GodunovMethod.hpp:ComputeNumericFlux"]}
{"id": "C83", "title": "Updates of tubes with a varying cross section conserve", "statement": "A step of the axial time integrator adds to each cell with fluxes at both faces exactly what flows through its two faces, weighted with the cross sections at the faces, plus (for the momentum) the wall force; other cells and components are untouched; totals over any run of cells change only through the outer faces and the wall; gas at rest with uniform pressure stays at rest for every shape; the cross sections used always belong to the present grid, after any history of regridding, level changes and copies.", "quantifier": "all area functions, fluxes, pressures, states, step sizes, boxes, components, and all histories of updates, reallocations and copies", "why_tests_cant": "conservation and well-balancedness are identities over all shapes and all histories of the grid; a test samples a few", "anchors": ["include/fub/AMReX/AxialTimeIntegrator.hpp: UpdateConservatively, RecomputeAxIfNeeded", "include/fub/AMReX/AxialFluxMethodAdapter.hpp: PreAdvanceHierarchy"]}
{"id": "C84", "title": "The source term for a varying cross section is exact and isentropic", "statement": "The axial source term keeps the velocity and the entropy, keeps density and temperature positive for every step size, solves the quasi one-dimensional equations exactly in time (steps compose), does nothing in a straight tube or for gas at rest, and uses the relative change of the cross section of the tube whose diameter the user gives.", "quantifier": "all states, step sizes, positions, cell sizes and diameter functions", "why_tests_cant": "exactness in time, positivity for every step size and the composition law are statements about all states and step sizes", "anchors": ["src/AMReX/AxialSourceTerm.cpp: AxialSourceTerm::AdvanceLevel, ComputeDiameters", "examples/AMReX/AxialVariation.cpp"]}
{"id": "C85", "title": "Detonations are triggered on schedule", "statement": "A level is ignited exactly when its time has passed the next scheduled time point (offset, offset + interval, ...) and the equivalence ratio at the measurement position exceeds the criterion, independently of other levels and of calls in between; no more than one ignition per interval on average; the measured ratio is that of the finest level covering the position, for any number of processes and any distribution of cells and ghost cells.", "quantifier": "all histories of calls on all levels, all options, all distributions of cells over processes", "why_tests_cant": "the schedule is an invariant of unbounded histories, the measurement ranges over all grids and process counts", "anchors": ["src/AMReX/IgniteDetonation.cpp: AdvanceLevel, GetNextIgnitionTimePoint, SetLastIgnitionTimePoint, GatherMoles_"]}
{"id": "C86", "title": "An ignition heats a ramp and leaves the rest of the gas as it is", "statement": "An ignition raises the temperature to a linear profile around the ignition position, never cools, never changes a density, keeps the composition in the ramp and burns it left of the ramp, does not touch cells right of the ramp, and leaves the momentum of the gas alone.", "quantifier": "all cells, options and domains", "why_tests_cant": "holds for every cell position and state", "anchors": ["src/AMReX/IgniteDetonation.cpp: AdvanceLevel", "src/equations/IdealGasMix.cpp: CompleteFromReactor"]}
{"id": "C87", "title": "Setting the internal energy finds the temperature", "statement": "Setting the internal energy of a mixture always ends with the temperature that has this energy, to the requested tolerance: the limited and bracketed Newton iteration needs at most its 1000 passes for any smooth energy whose heat capacity is positive and varies by at most a factor ten, from any starting temperature within 50000 K; in a pack every lane gets its own temperature even though lanes have different compositions and the passes go on until all have converged; the result is a physical (positive) temperature.", "quantifier": "all energy functions with a heat capacity in the range, all starting temperatures, targets, tolerances and pack widths", "why_tests_cant": "convergence within the pass limit has to hold for every heat capacity law and start, not for sampled mixtures", "anchors": ["src/equations/ideal_gas_mix/FlameMasterReactor.cpp: SetInternalEnergy, setEnergiesHOrU, SetInternalEnergyArray"]}
{"id": "C88", "title": "Composition of the reactor", "statement": "Setting mass fractions gives a composition (non-negative, sum one) with the ratios of the positive inputs and matching concentrations, and a composition is kept unchanged; setting mole fractions gives concentrations in these ratios and the mole-weighted averages; setting a pressure and reading it back agrees at unchanged temperature and composition; packs agree with single reactors lane by lane; a composition given as a string assigns exactly the named species; copies and assignments carry the whole state.", "quantifier": "all mechanisms, all species vectors of any length, all names and values, all states", "why_tests_cant": "needs to hold for every mechanism and every vector including negative or repeated entries; tests use a few mixtures", "anchors": ["src/equations/ideal_gas_mix/FlameMasterReactor.cpp: SetMassFractions, SetMassFractionsArray, SetMoleFractions, GetMoleFractions, GetMeanMolarMass, operator=", "include/fub/equations/ideal_gas_mix/FlameMasterReactor.hpp: SetPressure, GetPressure, SetPressureArray"]}
{"id": "C89", "title": "Chemistry conserves mass and energy", "statement": "Advancing the chemistry of a cell at constant volume keeps density, momentum, the sum of the partial densities and the total energy, whatever the mechanism; the temperature rate balances the energy of the produced species; energies read from the reactor belong to its current temperature after any history of calls; the reported ignition time is that of the steepest temperature rise.", "quantifier": "all mechanisms whose reactions conserve mass, all compositions and temperatures, all solutions of the rate equations, all call histories", "why_tests_cant": "conservation is a statement about every solution of a differential equation for every mechanism", "anchors": ["src/equations/ideal_gas_mix/FlameMasterReactor.cpp: OdeRhsAdvance, Advance, AdvanceAndFindMaxdT, UpdateThermoState", "src/equations/ideal_gas_mix/KineticSourceTerm.cpp: AdvanceLevel"]}
{"id": "C90", "title": "Completing a conservative mixture state", "statement": "Completing a conservative state of a mixture succeeds and keeps density, momentum and partial densities; the temperature found has the internal energy of the state to the tolerance of the iteration, and the total energy is changed by no more than that tolerance.", "quantifier": "all mechanisms with a heat capacity varying at most by a factor ten, all states with partial densities summing to the density, all reactor histories", "why_tests_cant": "the temperature iteration has to converge for every state, and the bound on the energy change has to hold for all of them", "anchors": ["src/equations/IdealGasMix.cpp: CompleteFromCons, CompleteFromReactor", "src/equations/ideal_gas_mix/FlameMasterReactor.cpp: SetInternalEnergy"]}
{"id": "C91", "title": "Integration of ordinary differential equations", "statement": "Integrating a system from t0 over dt returns the solution at t0 + dt or reports the failure of the underlying routine; the feedback function sees the solution at increasing times up to the end.", "quantifier": "all systems, routines, initial times and lengths, all return codes", "why_tests_cant": "failures of the routines depend on stiffness and cannot be provoked reliably in tests", "anchors": ["src/ode_solver/RadauSolver.cpp: RadauSolver::integrate", "src/ode_solver/CVodeSolver.cpp: CVodeSolver::integrate"]}
{"id": "C92", "title": "Initial data of a shock with a Mach number", "statement": "The state returned for a given state, a Mach number of the shock and a normal satisfies the jump conditions of mass, momentum and energy with the given state for a shock moving with that Mach number along the normal.", "quantifier": "all states, ratios of specific heats, Mach numbers, normals and dimensions", "why_tests_cant": "the jump conditions involve all components and every direction of the flow; tests use one direction", "anchors": ["include/fub/initial_data/ShockMachnumber.hpp: ComputePreShockState", "src/equations/PerfectGas.cpp: Machnumber"]}
{"id": "C93", "title": "Expansion to a given pressure", "statement": "A boundary state expanded to a given pressure keeps the entropy and the mass fractions, its energy belongs to its pressure and velocity, it keeps its direction and, with efficiency 1, its total enthalpy.", "quantifier": "all states, new pressures and efficiencies", "why_tests_cant": "conservation of entropy and enthalpy must hold for every pair of pressures and every direction of the flow", "anchors": ["include/fub/equations/PerfectGasMix.hpp: SetIsentropicPressure", "include/fub/equations/EulerEquation.hpp: IsentropicExpansionWithoutDissipationFn", "include/fub/AMReX/cutcell/boundary_condition/IsentropicPressureExpansion.hpp: ExpandState", "src/AMReX/boundary_condition/IsentropicPressureBoundary.cpp: IsentropicExpansionWithoutDissipation", "src/AMReX/cutcell/boundary_condition/IsentropicPressureBoundary.cpp: perfect_gas::IsentropicExpansionWithoutDissipation_"]}
{"id": "C94", "title": "Expansion to a given Mach number", "statement": "The boundary state for a required Mach number has that Mach number in the direction of the boundary, the entropy and the total enthalpy of the inner state, and leaves the domain.", "quantifier": "all states, Mach numbers, directions and ratios of specific heats", "why_tests_cant": "the relation holds by accident for single parameters; it must hold for all of them", "anchors": ["include/fub/AMReX/cutcell/boundary_condition/MachnumberBoundary.hpp: MachnumberBoundary::ExpandState"]}
{"id": "C95", "title": "Source term of diffusion", "statement": "A step of the diffusion source term keeps the density of every cell, changes the total momentum and energy only through the outer boundary, lets no velocity leave the range of the velocities and does not create kinetic energy for steps up to the stability limit, leaves uniform flow at uniform temperature alone, and reports a stable time step.", "quantifier": "all one-dimensional data on all grids, all viscosities and step sizes", "why_tests_cant": "conservation and a maximum principle are statements about every profile; the stability limit involves all cells", "anchors": ["include/fub/AMReX/DiffusionSourceTerm.hpp: DiffusionSourceTerm::AdvanceLevel, DiffusionSourceTerm::ComputeDiffusionFlux, DiffusionSourceTerm::ComputeStableDt, DiffusionSourceTerm::DiffusionSourceTerm"]}
{"id": "C96", "title": "Source term of axial symmetry", "statement": "The source term of axial symmetry terminates, keeps the velocities and mass fractions, keeps density and pressure positive, and advances the density over the requested time by the geometric decay with the rate u / r.", "quantifier": "all cells, equations of state, radii, velocities and step sizes", "why_tests_cant": "a statement about every state and every step, including the sign of the radial velocity", "anchors": ["src/AMReX/cutcell/AxiSymmetricSourceTerm.cpp: AxiSymmetricSourceTerm::AdvanceLevel"]}
{"id": "C97", "title": "Source terms around a system", "statement": "A level integrator with any number of nested source terms advances every source term and the system by exactly the requested time, reports the smallest of their stable steps, stops at the first failing call, calls the hooks before a step from the inside out and those after a step from the outside in, and reports the failure of any hook.", "quantifier": "all numbers of source terms, splitting methods, solvers, data and step sizes", "why_tests_cant": "the nesting and the solvers are arbitrary; failures can happen at every call", "anchors": ["include/fub/solver/SplitSystemSourceLevelIntegrator.hpp: SplitSystemSourceLevelIntegrator::AdvanceLevelNonRecursively, SplitSystemSourceLevelIntegrator::ComputeStableDt, SplitSystemSourceLevelIntegrator::PreAdvanceLevel, SplitSystemSourceLevelIntegrator::PostAdvanceLevel, SplitSystemSourceLevelIntegrator::PreAdvanceHierarchy, SplitSystemSourceLevelIntegrator::PostAdvanceHierarchy"]}
{"id": "C98", "title": "No gas flows through the embedded boundary of a cut cell", "statement": "In two and three dimensions, for a perfect gas and any orientation of the wall in a cut cell, the reference state computed before a time step is the state of the gas at that wall: its normal velocity vanishes, its velocity along the wall is that of the cell, and it is connected to the cell by a shock or a rarefaction which stops the gas up to the tolerance of the pressure iteration. Summed over the split directions with the area of the wall, the boundary fluxes transport no mass and no energy, and exactly the pressure at the wall as force. A flow along the wall is not disturbed at all. This must hold for every state for which the gas does not separate from the wall.", "quantifier": "all perfect gases with gamma <= 2, admissible states, unit normal vectors in 2D and 3D, states of the split steps, masks and mirror states", "why_tests_cant": "A test uses a few wall angles and states; whether nothing leaks holds for every angle (including the opposite of the first axis, where the rotation is a special case) and every state for which the iterative solver returns.", "anchors": ["include/fub/cutcell_method/KbnStabilisation.hpp: PreAdvanceHierarchy, ComputeBoundaryFlux", "src/CutCellData.cpp: GetBoundaryNormal", "include/fub/ext/Eigen.hpp: MakeRotation", "src/equations/perfect_gas/ExactRiemannSolver.hpp"]}
{"id": "C99", "title": "The optimisation solver finds a cheapest point or there is none", "statement": "Given linear constraints in two variables and a feasible starting point at which the first two constraints are independent and satisfied with equality, the solver for linear optimisation problems returns a feasible point with the least cost of all feasible points whenever the costs are bounded below. It needs at most one iteration more than there are constraints, also if several constraints meet in one point, and never cycles. If the costs are not bounded below it stops with a failed assertion and in no other case; the number of iterations never makes it return a wrong point.", "quantifier": "all lists of constraints of any length (parallel, redundant, zero and degenerate ones included), costs, starting vertices and numbers of iterations", "why_tests_cant": "Cycling at degenerate vertices and wrong pivots depend on the constellation of the constraints; a test tries a few constellations, and a returned point can only be compared with finitely many others.", "anchors": ["src/cutcell_method/AnyMdLimiter.cpp: SolveLinearOptimizationProblem, IsNonSingular, TakeRows"]}
{"id": "C100", "title": "The limiter of gradients in cut cells returns the largest monotone gradient", "statement": "The limiter of multidimensional gradients always succeeds, changes only the gradient of its cell, and reduces each of its components by a factor between 0 and 1, such that the linear function through the centroid of the cell has at the centroid of each visible neighbour (which shares a face, contains gas and is not behind the wall) a value between those of the two cells. No gradient with these properties has a larger sum of absolute components; in particular a gradient which is already monotone is left unchanged. Between two opposite neighbours which are both not larger or both not smaller the limited gradient vanishes in that direction.", "quantifier": "all gradients, cell values, geometries (volume fractions, centroids, normals), cells and cell sizes", "why_tests_cant": "The limiter solves an optimisation problem with a bounded number of iterations and throws otherwise; tests cover a few geometries, but success and maximality must hold for each geometry and each solution.", "anchors": ["src/cutcell_method/AnyMdLimiter.cpp: LinearOptimizationLimiter::LimitGradientsAtIndex, IsConnected", "include/fub/CutCellData.hpp: GetAbsoluteVolumeCentroid, GetOffset", "include/fub/PatchDataView.hpp: Neighborhood"]}
{"id": "C101", "title": "Gradients in cut cells are exact for linear data", "statement": "If the values in all cells which contain gas are those of a linear function at the centroids of the gas, then the multidimensional gradient computed in a regular cell, or in a cut cell at least three of whose faces, or one vertical and one horizontal face, are open and lead to gas that is not on a line with the cell, is the gradient of that function, and limiting keeps it. The gradient is zero in solid cells, and whatever the data, a computed gradient predicts for the visible neighbours values between those of the two cells. The property asked for every cut cell, and for gradients of primitive variables, is false: in a channel of the width of one cell and at a plate thinner than a cell an assertion fails, and gradients of the velocity are limited with the momentum.", "quantifier": "all geometries (fractions, centroids, normals), cell sizes, linear functions and cells; one dimensional gradient methods which are exact for linear data; the order of the faces by open fraction and gas volume must be consistent", "why_tests_cant": "Which faces enter the stencil depends on a sort with a comparison of two fractions; geometries are infinitely many and the tests use a few smooth bodies which are thick compared with the cells.", "anchors": ["include/fub/cutcell_method/MdGradients.hpp: MdGradients::ComputeGradients, LimitGradients", "include/fub/CutCellData.hpp: GetAbsoluteVolumeCentroid", "src/cutcell_method/AnyMdLimiter.cpp: LinearOptimizationLimiter", "include/fub/flux_method/Gradient.hpp: CentralDifferenceGradient, ConservativeGradient"]}
{"id": "C102", "title": "States at a face of a cut cell: linear data, unshielded centroid", "statement": "The two states and slopes which the cut cell method uses at the unshielded part of a face are, for linear data, the exact values half a cell to the left and to the right of the centroid of that part. The centroid is the middle of the part of the face which is neither closed nor shielded by a wall. The second sentence holds for faces which are completely open and is false for faces which are partly closed: the closed part is forgotten.", "quantifier": "all geometries, cell sizes, faces, directions, linear functions, open fractions between 0 and 1 of the shielding neighbour; for the refuted part all grids with a straight wall with the open fractions 1/2, 3/4, 1", "why_tests_cant": "Fractions and positions are real numbers; tests compare a few geometries with stored results of the same code.", "anchors": ["src/CutCellData.cpp: GetAbsoluteUnshieldedCentroid", "include/fub/cutcell_method/HGridReconstruction.hpp: HGridReconstruction::ReconstructRegularStencil"]}
{"id": "C103", "title": "States at the wall are mirror images", "statement": "Of the two states which are used for the flux at the wall of a cut cell, the one on the side of the fluid is the value of the linear reference function half a cell from the wall, the other is its reflected value at the mirror image of the point half a cell behind the wall. The slopes are those of the linear function and of its mirror image. The last sentence is false for the normal momentum, whose slope is not reflected.", "quantifier": "all geometries, cell sizes, directions, reference states and gradients, both orientations of the wall", "why_tests_cant": "Walls have arbitrary positions and normals; with a wrong slope the result is still a plausible state of the gas.", "anchors": ["include/fub/cutcell_method/HGridReconstruction2.hpp: LinearFunctional, HGridReconstruction2::ReconstructEmbeddedBoundaryStencil"]}
{"id": "C104", "title": "Reference state of a cut cell", "statement": "The state from which the wall flux of a cut cell is computed is the mean of the gas over the integration region of that cell; for linear data it is the value at the centroid of the region and its gradient is the gradient of the data. The y component of the gradient is wrong (it is the x component). If a part of the region is outside of the patch or solid, the cell gets the state of another cut cell.", "quantifier": "all decompositions of the region into parts of positive volume, data, geometries and orders of the cells", "why_tests_cant": "The decompositions come from exact polygon clipping and have any number of parts; a stale state depends on the order of the loop.", "anchors": ["include/fub/cutcell_method/HGridReconstruction.hpp: ConservativeHGridReconstruction::IntegrateCellState", "include/fub/cutcell_method/MyStabilisation.hpp: MyCutCellMethod::ComputeBoundaryStates", "src/CutCellData.cpp: Centroid, TotalVolume"]}
{"id": "C105", "title": "States at the shielded part of a face are means over one cell width", "statement": "The left and right state used for the shielded part of a face are the means, over one cell width on each side of the face, of the piecewise linear function that consists of the mirrored function behind the wall, the function of the cut cell between wall and face, and the functions of the wall stencil and of the next cell on the other side; the slopes are the means of the slopes. With linear data the states are exact half a cell from the face.", "quantifier": "all geometries, cell sizes, directions, states, gradients, wall stencils, both orientations of the wall", "why_tests_cant": "The means are weighted with the position of the wall, a real number; wrong weights still give consistent states for uniform data.", "anchors": ["include/fub/cutcell_method/HGridReconstruction2.hpp: HGridReconstruction2::ReconstructSinglyShieldedStencil"]}
{"id": "C106", "title": "Stabilised fluxes of the h-grid method and their update conserve", "statement": "The stabilised flux at a face is the mean of the fluxes of its unshielded and shielded parts, for any number of vector lanes and any row length; with it the total content of any range of cells changes only by what passes the two outer faces and the walls. False if a face is shielded from both sides, where the doubly shielded part has no flux and gas at rest is accelerated, and for cut cells with equal face fractions that are not equal to the volume fraction, where an assertion fails.", "quantifier": "all rows, lane numbers, fractions, fluxes, time steps and numbers of cells", "why_tests_cant": "Rows and ranges have any length, fractions are real numbers; tests use single bodies without thin channels.", "anchors": ["src/cutcell_method/MyStabilisation.cpp: ComputeStableFluxes_Row", "src/AMReX/cutcell/TimeIntegrator.cpp: TimeIntegrator2::UpdateConservatively"]}
{"id": "C107", "title": "Uniform flow along the walls stays uniform with the h-grid method", "statement": "If the gas is uniform and a reflection at the walls does not change it (at rest, or moving along the walls), then the regular, wall and shielded stencils all consist of that state without slopes, and with every flux function the cut cells keep their values, if no open face is shielded from both sides.", "quantifier": "all geometries and fractions, states, flux functions, directions, decompositions of the integration region", "why_tests_cant": "Needs all geometries; a test with one wall and rounding cannot tell a small imbalance from round off.", "anchors": ["include/fub/cutcell_method/HGridReconstruction2.hpp", "include/fub/cutcell_method/HGridReconstruction.hpp", "src/cutcell_method/MyStabilisation.cpp", "src/AMReX/cutcell/TimeIntegrator.cpp: TimeIntegrator2"]}
{"id": "C108", "title": "Reactions keep the atoms of every element", "statement": "For each of the five chemistry mechanisms (Burke2012, Zhao2008Dme, Gri30, AramcoMech_DMEonly_74spec, AramcoMech_woC3H4_91spec) the production rates of the atoms of C, H, O, N, Ar and He add up to zero, where the number of atoms of a species is read off its formula. Explicit time steps and exact solutions of the reactor keep the atoms of every element; argon and helium take no part.", "quantifier": "all five mechanisms, all concentrations, temperatures and pressures for which the rates are numbers, all elements, all solutions", "why_tests_cant": "Several hundred reactions are coded by hand-sized formulas for every species; one wrong sign or index loses atoms only where that reaction is fast, so no finite set of states shows that all formulas fit together.", "anchors": ["src/equations/ideal_gas_mix/mechanism/Burke2012.cpp: Burke2012::ComputeProductionRates", "src/equations/ideal_gas_mix/mechanism/Zhao2008Dme.cpp: Zhao2008Dme::ComputeProductionRates", "src/equations/ideal_gas_mix/mechanism/Gri30.cpp: Gri30::ComputeProductionRates", "src/equations/ideal_gas_mix/mechanism/AramcoMech_DMEonly_74spec.cpp: AramcoMech_DMEonly_74spec::ComputeProductionRates", "src/equations/ideal_gas_mix/mechanism/AramcoMech_woC3H4_91spec.cpp: AramcoMech_woC3H4_91spec::ComputeProductionRates"]}
{"id": "C109", "title": "Species which are absent are not consumed", "statement": "For concentrations between 0 and B and temperatures in a compact interval the loss rate of every species is at most a constant times its own concentration. So the rate of an absent species is not negative, and a sufficiently short explicit step leaves all concentrations non-negative, with one bound of the step for all states.", "quantifier": "all five mechanisms, all bounds B and temperature intervals (up to 4600 K for the Aramco mechanisms), all concentrations, pressures, species", "why_tests_cant": "Needs all states at the boundary of the set of admissible compositions; a reaction which consumes a species that does not occur in its rate shows only when that species is absent.", "anchors": ["src/equations/ideal_gas_mix/mechanism/Burke2012.cpp: Burke2012::ComputeProductionRates", "src/equations/ideal_gas_mix/mechanism/Zhao2008Dme.cpp: Zhao2008Dme::ComputeProductionRates", "src/equations/ideal_gas_mix/mechanism/Gri30.cpp: Gri30::ComputeProductionRates", "src/equations/ideal_gas_mix/mechanism/AramcoMech_DMEonly_74spec.cpp: AramcoMech_DMEonly_74spec::ComputeProductionRates", "src/equations/ideal_gas_mix/mechanism/AramcoMech_woC3H4_91spec.cpp: AramcoMech_woC3H4_91spec::ComputeProductionRates"]}
{"id": "C110", "title": "Reactions keep the mass; molar masses fit the formulas", "statement": "With the molar masses of the mechanism the production rates of mass add up to zero (up to rounding of the decimal constants), and the molar masses are those of the formulas. Exact for Burke2012, up to 1e-13 times the sum of the reaction rates for Gri30 and the Aramco mechanisms. False for Zhao2008Dme, where HCCOH weighs 60.18 instead of 42.04, so that mass disappears; the molar mass of helium is that of neon in three mechanisms.", "quantifier": "all concentrations, temperatures, pressures, species; for the refuted part all mixtures of H and HCCOH at all temperatures and pressures", "why_tests_cant": "A wrong molar mass gives plausible flames as long as that species is rare.", "anchors": ["src/equations/ideal_gas_mix/mechanism/Burke2012.cpp: Burke2012::ComputeProductionRates", "src/equations/ideal_gas_mix/mechanism/Zhao2008Dme.cpp: Zhao2008Dme::ComputeProductionRates", "src/equations/ideal_gas_mix/mechanism/Gri30.cpp: Gri30::ComputeProductionRates", "src/equations/ideal_gas_mix/mechanism/AramcoMech_DMEonly_74spec.cpp: AramcoMech_DMEonly_74spec::ComputeProductionRates", "src/equations/ideal_gas_mix/mechanism/AramcoMech_woC3H4_91spec.cpp: AramcoMech_woC3H4_91spec::ComputeProductionRates", "include/fub/equations/ideal_gas_mix/mechanism/Burke2012.hpp: getMolarMass", "include/fub/equations/ideal_gas_mix/mechanism/Zhao2008Dme.hpp: getMolarMass", "include/fub/equations/ideal_gas_mix/FlameMasterReactor.hpp: FlameMasterMechanism"]}
{"id": "C111", "title": "Production rates are numbers", "statement": "For non-negative concentrations and positive temperature and pressure the production rates are numbers (no logarithm or power outside of its domain, no division by zero). True for Burke2012, Zhao2008Dme and Gri30 at all temperatures and for the Aramco mechanisms up to 4600 K; from 5000 K on the Aramco mechanisms give no number for any mixture.", "quantifier": "all mechanisms, compositions, temperatures and pressures", "why_tests_cant": "The broadening factors are sums of exponentials with coefficients of both signs; where they change sign depends on the temperature, and a test at flame temperatures never gets there.", "anchors": ["src/equations/ideal_gas_mix/mechanism/Burke2012.cpp: Burke2012::ComputeProductionRates", "src/equations/ideal_gas_mix/mechanism/Zhao2008Dme.cpp: Zhao2008Dme::ComputeProductionRates", "src/equations/ideal_gas_mix/mechanism/Gri30.cpp: Gri30::ComputeProductionRates", "src/equations/ideal_gas_mix/mechanism/AramcoMech_DMEonly_74spec.cpp: AramcoMech_DMEonly_74spec::ComputeProductionRates", "src/equations/ideal_gas_mix/mechanism/AramcoMech_woC3H4_91spec.cpp: AramcoMech_woC3H4_91spec::ComputeProductionRates"]}
{"id": "C112", "title": "Rate coefficients between low and high pressure", "statement": "In the fall-off the rate coefficient lies between fc h and h, where h is half the harmonic mean of the coefficients at low and high pressure. Coefficients tabulated over the pressure are constant outside of the table, and between neighbouring entries their logarithm is linear in the logarithm of the pressure; all tables of the mechanisms are ordered and positive.", "quantifier": "all versions of the formula, temperatures, pressures, coefficients, concentrations; all tables of any length", "why_tests_cant": "Pressures and tables are arbitrary; a wrong neighbour or a swapped weight gives values of the right size.", "anchors": ["src/equations/ideal_gas_mix/mechanism/Burke2012.cpp: GetLindRateCoeff", "src/equations/ideal_gas_mix/mechanism/AramcoMech_DMEonly_74spec.cpp: GetPlogRateCoeff", "src/equations/ideal_gas_mix/mechanism/AramcoMech_woC3H4_91spec.cpp: GetPlogRateCoeff"]}
{"id": "C113", "title": "Species are found under their formula", "statement": "A composition given as a text which names species by their formulas is accepted. True for Burke2012 and AramcoMech_woC3H4_91spec. False for Gri30 (O, H, HO2), Zhao2008Dme (OH) and AramcoMech_DMEonly_74spec (O2CH2OCH2O2H), whose stored names have blanks at the end or are cut off: every text with one of these is refused.", "quantifier": "all texts (lists of names and values), all states of the reactor", "why_tests_cant": "There are as many texts as compositions.", "anchors": ["src/equations/ideal_gas_mix/mechanism/AramcoMech_DMEonly_74spec.cpp: getSpeciesNames", "src/equations/ideal_gas_mix/mechanism/Zhao2008Dme.cpp: getSpeciesNames", "include/fub/equations/ideal_gas_mix/mechanism/Gri30.hpp: getSpeciesNames", "src/equations/ideal_gas_mix/FlameMasterReactor.cpp: SetMassFractions"]}
{"id": "C114", "title": "Reconstructions solve the linearised equations exactly", "statement": "If the states of three neighbouring cells lie on an affine solution of the Euler equations linearised at the middle cell, the reconstruction at a face in primitive or characteristic variables is the value of this solution at the face after half a time step, for every limiter which keeps equal slopes, in any dimension, with any number of species and passive scalars; the array version gives the same. True for reference Mach number 1; false for every other one, and then scalar and array version differ.", "quantifier": "all affine solutions, dimensions, directions, sides, time steps, cell sizes, limiters with L(1) = 1, gas constants; for the refutation all Mach numbers other than 1", "why_tests_cant": "Second order accuracy is a statement about all smooth data; a wrong speed in one of the waves leaves constant states and contacts untouched and passes most regression tests.", "anchors": ["include/fub/flux_method/Gradient.hpp: PrimitiveGradient", "include/fub/flux_method/Gradient.hpp: CharacteristicsGradient", "include/fub/flux_method/Reconstruct.hpp: PrimitiveReconstruction", "include/fub/flux_method/Reconstruct.hpp: CharacteristicsReconstruction"]}
{"id": "C115", "title": "Undoing a reconstruction", "statement": "The inverse of the reconstruction in primitive variables returns the state of the cell. True without pressure gradient, except for passive scalars. False otherwise: with gradients of density and pressure another state comes back, without gradient of the density the result is not a number, and passive scalars are never recovered if they have a gradient.", "quantifier": "all states, gradients without pressure, time steps, cell sizes, sides, dimensions", "why_tests_cant": "There is no test of the inverse; for most data it comes close to the right state, because the wrong term is of first order in the time step.", "anchors": ["include/fub/flux_method/Reconstruct.hpp: PrimitiveReconstruction::ReconstructInvers"]}
{"id": "C116", "title": "Reconstructed density and pressure are positive", "statement": "With MinMod slopes of the primitive variables the reconstructed density and pressure are positive if the states of the cells have positive density and pressure and the time step satisfies dt |u| <= k dx with k (1 + 2 gamma) <= 1. A CFL number of 4/5 of the acoustic speeds is not enough.", "quantifier": "all states with positive density and pressure, all time steps under the bound, gamma >= 1, directions, sides, dimensions", "why_tests_cant": "The bad states are rarefactions with strong jumps of the pressure; sampling finds them only by luck.", "anchors": ["include/fub/flux_method/Reconstruct.hpp: PrimitiveReconstruction::Reconstruct", "include/fub/flux_method/Gradient.hpp: PrimitiveGradient"]}
{"id": "C117", "title": "MusclHancock2 is the MUSCL-Hancock method", "statement": "MusclHancock2 with gradients and reconstruction in conservative variables gives the same flux as MusclHancockMethod, for MinMod and van Leer slopes. For grids with covered cells: without covered cells the same flux as without masks; a side whose stencil touches a covered cell uses the state of its cell. The reconstruction of a uniform state in primitive variables is the state.", "quantifier": "all equations, states, time steps, cell sizes, base methods, volume fractions", "why_tests_cant": "The two classes have no code in common; equality on all states is a statement about all limiter branches.", "anchors": ["include/fub/flux_method/MusclHancockMethod2.hpp: MusclHancock2", "include/fub/flux_method/Gradient.hpp: ConservativeGradient", "include/fub/flux_method/Reconstruct.hpp: ConservativeReconstruction", "include/fub/flux_method/MusclHancockMethod.hpp: MusclHancock"]}
{"id": "C118", "title": "MusclHancock2 prefers no direction", "statement": "Mirroring the cells of a stencil gives the mirrored flux, if the base method has this property and respects equality of states.", "quantifier": "all states with nonzero densities, time steps, directions, dimensions, base methods", "why_tests_cant": "Symmetry has to hold for each pair of mirrored data; a swapped side or a sign in one component breaks it for some data only.", "anchors": ["include/fub/flux_method/MusclHancockMethod2.hpp: MusclHancock2", "include/fub/flux_method/Reconstruct.hpp: PrimitiveReconstruction", "include/fub/flux_method/Gradient.hpp: PrimitiveGradient"]}
{"id": "C119", "title": "Data resampled between grids are exact means", "statement": "When data of cells of one size are resampled to cells of another size at a connection, every new cell is the exact mean of the old cells which it covers, counted from the interface; the new cells together hold what lies below them, and no new extrema arise. False when the new cells are coarser and both rows end at the same position: one value beyond the end of the data is read.", "quantifier": "all cell sizes, numbers of cells, data, sides", "why_tests_cant": "The loops carry remainders from cell to cell; which of their branches are taken depends on the real ratio of the cell sizes, and a test covers a few ratios only. A read beyond the end with weight zero usually goes unnoticed.", "anchors": ["src/AMReX/multi_block/MultiBlockBoundary.cpp: InterpolateStates_Greater", "src/AMReX/multi_block/MultiBlockBoundary.cpp: InterpolateStates_Less", "src/AMReX/multi_block/MultiBlockBoundary.cpp: InterpolateStates", "src/AMReX/multi_block/MultiBlockBoundary2.cpp: InterpolateStates"]}
{"id": "C120", "title": "Ghost cells at a connection continue the other block", "statement": "The ghost cell number m of a tube or plenum at a connection is the mean of the other block between the distances m dx and (m + 1) dx from the interface, on both sides and in both directions; for equal cell sizes it is the copy of the cell at the same distance. Not defined if the ghost cells are coarser by an integer factor.", "quantifier": "all boxes, ghost cell widths, cell sizes without common end, data, both sides, both directions of the coupling", "why_tests_cant": "A mirrored order or a shift by one cell shows up only in unsteady data with gradients at the interface, and depends on the ratio of the cell sizes.", "anchors": ["src/AMReX/multi_block/MultiBlockBoundary.cpp: MakeMirrorBox", "src/AMReX/multi_block/MultiBlockBoundary.cpp: MakeGhostBox", "src/AMReX/multi_block/MultiBlockBoundary.cpp: MultiBlockBoundary::ComputeBoundaryDataForTube", "src/AMReX/multi_block/MultiBlockBoundary.cpp: MultiBlockBoundary::ComputeBoundaryDataForPlenum", "src/AMReX/multi_block/MultiBlockBoundary2.cpp: AnyMultiBlockBoundary::ComputeBoundaryData"]}
{"id": "C121", "title": "Averages over the cross section of a plenum", "statement": "The state handed to a tube is the average of the plenum over the open part of its cross section: open volume times average is the sum over the cells on all ranks, whatever their distribution; averages lie within the range of the cells; positive density and pressure are kept, also in one dimension, where transverse kinetic energy becomes pressure; going to more dimensions and back changes nothing. Only for connections along x: in other directions the sums are stored outside of the buffer.", "quantifier": "all numbers of ranks, tiles, cells, volume fractions, states, dimensions, gas constants", "why_tests_cant": "The sums depend on the decomposition and the geometry; positivity of averages is a convexity argument over all states.", "anchors": ["src/AMReX/multi_block/MultiBlockBoundary.cpp: ReduceTotalVolume", "src/AMReX/multi_block/MultiBlockBoundary.cpp: AverageConservativeHierarchyStates", "src/AMReX/multi_block/MultiBlockBoundary.cpp: ReduceDimension", "src/AMReX/multi_block/MultiBlockBoundary2.cpp: AverageConservativeHierarchyStates", "include/fub/AMReX/multi_block/MultiBlockBoundary2.hpp: ReduceStateDimension", "include/fub/AMReX/multi_block/MultiBlockBoundary2.hpp: EmbedState"]}
{"id": "C122", "title": "Conservation at a connection", "statement": "The flux at the last face of a tube times the open area is the flux through the open faces of the plenum at the connection, for mass, momentum along the tube, energy and species. True at the lower end of a plenum. False at the upper end, where the flux is taken from the faces one cell inside of the plenum; true there if the flux is uniform. At a closed connection all fluxes are zero, also that of momentum.", "quantifier": "all boxes, tiles of all types, area fractions, fluxes, dimensions, components", "why_tests_cant": "An error in the index of the face changes nothing for uniform flow and little for smooth flow; conservation has to hold for all fields and geometries.", "anchors": ["src/AMReX/multi_block/MultiBlockIntegratorContext2.cpp: GetBoundary", "src/AMReX/multi_block/MultiBlockIntegratorContext2.cpp: AverageFlux_", "src/AMReX/multi_block/MultiBlockIntegratorContext2.cpp: MultiBlockIntegratorContext2::ComputeNumericFluxes", "src/AMReX/multi_block/MultiBlockIntegratorContext.cpp: GetBoundary", "src/AMReX/multi_block/MultiBlockIntegratorContext.cpp: MultiBlockIntegratorContext::ComputeNumericFluxes"]}
{"id": "C123", "title": "Every connection is renewed in every step", "statement": "Before a step the ghost data of every connection are renewed from the two blocks of that connection; the stable time step is the smallest one of the blocks; copies of a context have the same blocks. The first is true for the first version; in the second version only for a block whose connections come first in the list: otherwise the first connection of the block is never renewed, and others may get the data of another plenum. A copy loses plena if there are more plena than tubes.", "quantifier": "all lists of connections, numbers of tubes and plena, levels", "why_tests_cant": "The mistakes need a particular order of the connections; the examples with one plenum and one tube are right.", "anchors": ["src/AMReX/multi_block/MultiBlockIntegratorContext2.cpp: MultiBlockIntegratorContext2::ComputeMultiBlockBoundaryData", "src/AMReX/multi_block/MultiBlockIntegratorContext2.cpp: MultiBlockIntegratorContext2::ComputeStableDt", "src/AMReX/multi_block/MultiBlockIntegratorContext2.cpp: MultiBlockIntegratorContext2::MultiBlockIntegratorContext2", "src/AMReX/multi_block/MultiBlockIntegratorContext.cpp: MultiBlockIntegratorContext::PreAdvanceLevel", "include/fub/AMReX/multi_block/MultiBlockGriddingAlgorithm2.hpp: MultiBlockGriddingAlgorithm2"]}
{"id": "C124", "title": "The twelve cell flux is the three stage Runge-Kutta method", "statement": "Updating every cell with the fluxes which the third order method computes, each from its own twelve cells, gives exactly the three stages of Shu and Osher applied to the whole grid, so neighbouring faces agree on all intermediate states; no intermediate value is used before it is computed. For linear equations this is the Taylor polynomial of third degree of the solution. Uniform flow gives the flux of the equations.", "quantifier": "all gases, states of the grid, time steps, cell sizes", "why_tests_cant": "Each face recomputes the intermediate states of its neighbourhood in local arrays; an index shifted by one or a wrong weight leaves a plausible, convergent method of lower order.", "anchors": ["src/equations/perfect_gas/ThirdOrderRungeKuttaMethod.hpp: ComputeNumericFlux", "src/equations/perfect_gas/ThirdOrderRungeKuttaMethod.hpp: CellToEdge"]}
{"id": "C125", "title": "Fluxes at the faces of the third order method", "statement": "Mirrored flow gives mirrored fluxes. The value at a face is exact for data on a straight line, but not for parabolas, neither for point values nor for means of cells (so the method is of second order in space), and positive densities in the cells may give a negative density at the face. Friction moves no mass and momentum only from fast to slow, and heat flows from warm to cold at equal velocities.", "quantifier": "all states, parabolas, cell sizes, coefficients of friction and conduction", "why_tests_cant": "The order of accuracy and signs are statements about all data; tests with one profile measure an order which depends on the resolution.", "anchors": ["src/equations/perfect_gas/ThirdOrderRungeKuttaMethod.hpp: CellToEdge_", "src/equations/perfect_gas/ThirdOrderRungeKuttaMethod.hpp: CellToEdge", "src/equations/perfect_gas/ThirdOrderRungeKuttaMethod.hpp: ComputeDiffusion", "src/equations/perfect_gas/ThirdOrderRungeKuttaMethod.hpp: ComputeNumericFlux"]}
{"id": "C126", "title": "Contact waves and time step of the third order method", "statement": "Without friction and conduction, uniform velocity and pressure remain exactly uniform and the density is advected by the linear three stage method, while the densities at the faces do not vanish. The time step which the method returns has Courant number one at both cells of the face; it is not stable: waves of three cells grow in every step exactly if (alpha_1 + 2 alpha_2) |u| dt / dx > 1, that is for Courant numbers above 0.577.", "quantifier": "all velocities, pressures, density profiles, time steps", "why_tests_cant": "Instability needs a certain wave and Courant number and many steps; tests use smooth waves and small Courant numbers.", "anchors": ["src/equations/perfect_gas/ThirdOrderRungeKuttaMethod.hpp: ComputeStableDt", "src/equations/perfect_gas/ThirdOrderRungeKuttaMethod.hpp: ComputeNumericFlux"]}
{"id": "C127", "title": "Limiter of the primitive MUSCL-Hancock method", "statement": "The limited slope is zero at extrema, keeps the sign of the data, is the harmonic mean of the smaller and the central difference otherwise, and both face values of a cell lie between the cell and the neighbour at that face. Straight lines keep their slope, mirrored data have the mirrored slope. Not independent of units: central differences up to 1e-12 count as zero.", "quantifier": "all triples of values", "why_tests_cant": "Bounds must hold for every triple of values; the threshold matters only for small values, for example densities in other units.", "anchors": ["src/equations/perfect_gas/MusclHancockPrimMethod.hpp: ComputeNumericFlux"]}
{"id": "C128", "title": "MUSCL-Hancock in primitive variables", "statement": "The states at a face are those of the Euler equations after half a time step, to first order. Uniform flow gives the exact flux; contact and shear waves at rest exchange only pressure for every density profile; a density on a straight line carried along by the flow gives the exact flux at the half time; mirrored flow gives mirrored states. In cut cells, cells without volume count as copies of their neighbour. Not guaranteed: positive densities at the face (even if no wave crosses more than one cell per step), and a zero flux at closed faces if all faces of a pack are closed.", "quantifier": "all dimensions, directions, gases, states, time steps, cell sizes, volume fractions", "why_tests_cant": "Exactness for all profiles and independence of the values in covered cells are statements about all data.", "anchors": ["src/equations/perfect_gas/MusclHancockPrimMethod.hpp: ComputeNumericFlux"]}
{"id": "C129", "title": "MUSCL-Hancock in characteristic variables", "statement": "The wave amplitudes determine the jump completely; moving every wave with its own speed is the half step of the Euler equations, exact for data on straight lines with every limiter which keeps equal differences. Uniform flow and resting contact waves have the exact flux. In cut cells the slopes vanish if one of the cells has no volume, for the default limiter; not for limiters such as the plain mean, since only the left differences are masked.", "quantifier": "all dimensions, directions, gases, states, limiters, volume fractions", "why_tests_cant": "An error in one eigenvector or wave speed is invisible in many test problems; covered cells usually hold harmless values in tests.", "anchors": ["src/equations/perfect_gas/MusclHancockCharacteristicMethod.hpp: ComputeAmplitudes", "src/equations/perfect_gas/MusclHancockCharacteristicMethod.hpp: Recombine", "src/equations/perfect_gas/MusclHancockCharacteristicMethod.hpp: ComputeSlopes", "src/equations/perfect_gas/MusclHancockCharacteristicMethod.hpp: DoTimeStep", "src/equations/perfect_gas/MusclHancockCharacteristicMethod.hpp: Reconstruct", "src/equations/perfect_gas/MusclHancockCharacteristicMethod.hpp: ComputeNumericFlux", "include/fub/equations/perfect_gas/MusclHancockCharactersticMethod.hpp: Primitives"]}
{"id": "C130", "title": "Outflow with a given pressure", "statement": "Behind the boundary the gas has the given pressure and the velocity and temperature of the last cell if it is not faster than sound, otherwise it is a copy of the last cell; mixtures keep mass fractions and passive scalars. Only ghost cells beyond the chosen side change; cells without gas, or without gas in front of them, become zero. Only the velocity normal to the boundary should decide: not so, the whole speed does.", "quantifier": "all gases, states, pressures, boxes, decompositions, volume fractions", "why_tests_cant": "Depends on every combination of boxes, ghost cells and covered cells and on all states.", "anchors": ["src/AMReX/cutcell/boundary_condition/PressureOutflowBoundary.cpp: FillBoundary", "src/AMReX/cutcell/boundary_condition/PressureOutflowBoundary2.cpp: FillBoundary"]}
{"id": "C131", "title": "Turbine: mass flow by an exact Riemann problem", "statement": "The ghost state is a gas which a single wave makes of the inner gas, keeps the velocity along the turbine, and its pressure is as close to that of a gas with exactly the required mass flow as the bisection is precise. If nothing is supersonic, this state stands at the boundary in the exact solution. Mass flows beyond the expansion into vacuum raise an exception; smaller mass flows than the arriving one never do for Mach numbers up to 48. Not every possible mass flow is found.", "quantifier": "all gases, inner states, mass flows, areas, directions, bracketing root finders", "why_tests_cant": "The solution is defined implicitly; a wrong wave relation gives plausible states in every test.", "anchors": ["include/fub/AMReX/cutcell/boundary_condition/TurbineMassflowBoundary.hpp: RequireMassflow_SolveExactRiemannProblem::operator()", "include/fub/AMReX/cutcell/boundary_condition/TurbineMassflowBoundary.hpp: FindLowerAndUpperBounds", "include/fub/AMReX/cutcell/boundary_condition/TurbineMassflowBoundary.hpp: delta_rhou"]}
{"id": "C132", "title": "Turbine: mass flow without losses", "statement": "The required mass flow has the given corrected mass flow m sqrt(T0)/p0; its average does not depend on the distribution over processes. The ghost state has the entropy, the total enthalpy and the velocity along the turbine of the inner gas and at most the required mass flow up to the tolerance of the iteration; an inner gas which already has the mass flow is kept. Not so for oblique flow (corrected mass flow too small) and supersonic gas (more mass and energy); an impossible mass flow is not reported; a backward mass flow for a gas at rest ends the program.", "quantifier": "all gases, inner states, mass flows, areas, directions, distributions over processes", "why_tests_cant": "Conservation of entropy and enthalpy must hold for every state; the failures need special states.", "anchors": ["include/fub/AMReX/cutcell/boundary_condition/TurbineMassflowBoundary.hpp: ComputeRequiredMassflow", "include/fub/AMReX/cutcell/boundary_condition/TurbineMassflowBoundary.hpp: AverageRequiredMassflow", "include/fub/AMReX/cutcell/boundary_condition/TurbineMassflowBoundary.hpp: RequireMassflow_Jirasek::operator()"]}
{"id": "C133", "title": "Plenum in front of the turbine", "statement": "Gas which leaves the tube is brought to the pressure of the plenum without losses: with its velocity towards a lower pressure, slowed down at constant total enthalpy (or to rest) against a higher one, at rest if it moves away. Gas which enters the tube comes from the plenum with its entropy and the pressure of the tube, its velocity points into the tube, mass fractions are kept. The total enthalpy of the entering gas is that of the plenum only if the tube has the temperature of the expanded gas; passive scalars are not scaled; with another reference Mach number the pressure is wrong.", "quantifier": "all gases, tube states, plenum pressures and temperatures", "why_tests_cant": "The four cases join along surfaces which tests do not hit; entropy and enthalpy are not visible in the output.", "anchors": ["src/AMReX/boundary_condition/TurbinePlenumBoundaryCondition.cpp: FillBoundary"]}
{"id": "C134", "title": "Advection with given mass fluxes", "statement": "The flux carries the quotient rho/P and the velocity of the side the flow comes from, exactly for straight profiles; a uniform quotient and velocity stay uniform for every velocity field; the totals of mass, momentum and P are kept; no step is done with which the advection velocity crosses more than one cell, otherwise the largest allowed step is reported. Not so: with several threads the time step may be too large; new extrema and negative P may arise.", "quantifier": "all states, fluxes, grids, decompositions, splitting methods, time steps, schedules of threads", "why_tests_cant": "Conservation and uniform states must hold for every flow; the race needs an unlucky schedule.", "anchors": ["src/equations/CompressibleAdvection.cpp: ComputeNumericFlux", "src/equations/CompressibleAdvection.cpp: ComputeStableDt", "include/fub/solver/DimensionalSplitLevelIntegrator.hpp: AdvanceLevelNonRecursively"]}
{"id": "C135", "title": "Advective fluxes and the divergence of the pressure equation agree", "statement": "The change of P in a cell over an advection is the time step times the mean of the divergences in the four corners, as the pressure equation measures them. So a velocity field which the pressure equation accepts does not change P. The averages to faces and nodes are exact for linear fields and stay within the bounds of the cells.", "quantifier": "all cell fields, grids, splitting methods, time steps", "why_tests_cant": "It is an identity between two different parts of the program for every field.", "anchors": ["src/AMReX/solver/BK19LevelIntegrator.cpp: RecomputeAdvectiveFluxes", "src/AMReX/solver/BK19LevelIntegrator.cpp: AverageCellToFace_", "src/AMReX/solver/BK19LevelIntegrator.cpp: AverageCellToNode_", "src/AMReX/MLMG/MLNodeHelmDualCstVel_2D_K.cpp: mlndhelm_divu"]}
{"id": "C136", "title": "Implicit pressure step and initial projection", "statement": "After the implicit step the momentum satisfies the implicit equation with rotation and pressure gradient whatever the linear solver returned, and velocity and pressure satisfy the implicit pressure equation up to the residual of the linear solver. Which exact solution the solver picks has no influence on the momentum. The initial projection removes the divergence and does not add kinetic energy. Not so: for an axis of rotation which has not the length one; for a projection after a compressible step, whose coefficient is left in the operator; the operator for harmonic averages does not send constants to zero.", "quantifier": "all states, grids, solvers of the linear system, parameters, time steps", "why_tests_cant": "The solution of a linear system is an arbitrary member of a set; the equations must hold for all of them.", "anchors": ["src/AMReX/solver/BK19LevelIntegrator.cpp: DoEulerBackward_", "src/AMReX/solver/BK19LevelIntegrator.cpp: BK19LevelIntegrator::InitialProjection", "src/AMReX/MLMG/MLNodeHelmDualCstVel_2D_K.cpp: mlndhelm_adotx_aa", "src/AMReX/MLMG/MLNodeHelmDualCstVel_2D_K.cpp: mlndhelm_adotx_ha"]}
{"id": "C137", "title": "Complete step for nearly incompressible flow", "statement": "The explicit half step solves the explicit equations. A complete step keeps total mass and total P however inaccurate the linear solver is. In the incompressible limit no cell changes its P by more than the time step times the residual of the linear solver. Uniform flow stays uniform, keeps its speed and is turned by the angle of the trapezoidal rule; without rotation it does not change at all.", "quantifier": "all states, grids, solvers of the linear system, parameters, splitting methods, time steps", "why_tests_cant": "Five stages with different data must fit together for every flow.", "anchors": ["src/AMReX/solver/BK19LevelIntegrator.cpp: DoEulerForward_", "src/AMReX/solver/BK19LevelIntegrator.cpp: BK19LevelIntegrator::AdvanceLevelNonRecursively"]}
{"id": "C138", "title": "Smoothers keep exactly the solutions", "statement": "A Gauss-Seidel sweep over the nodes of a box changes nothing outside of it, sets masked nodes to zero, satisfies the equation of the last node, and leaves a field unchanged if and only if it solves the equations of the box; this for both forms of the operator and every order of the nodes. The damped Jacobi step divides the residual by the diagonal and keeps exactly the solutions. Normalising gives a unit diagonal and an equivalent system. The diagonals are negative, so nothing is divided by zero. Smoothing several boxes keeps a solution for every decomposition and ownership of shared nodes.", "quantifier": "all coefficients, masks, right hand sides, fields, boxes, orders, decompositions", "why_tests_cant": "Stencils written three times with other factors agree on sampled data only by luck; the fixed points must be right for every field.", "anchors": ["src/AMReX/MLMG/MLNodeHelmDualCstVel_2D_K.cpp: mlndhelm_gauss_seidel_aa", "src/AMReX/MLMG/MLNodeHelmDualCstVel_2D_K.cpp: mlndhelm_gauss_seidel_ha", "src/AMReX/MLMG/MLNodeHelmDualCstVel_2D_K.cpp: mlndhelm_jacobi_aa", "src/AMReX/MLMG/MLNodeHelmDualCstVel_2D_K.cpp: mlndhelm_jacobi_ha", "src/AMReX/MLMG/MLNodeHelmDualCstVel_2D_K.cpp: mlndhelm_normalize_aa", "src/AMReX/MLMG/MLNodeHelmDualCstVel_2D_K.cpp: mlndhelm_normalize_ha", "src/AMReX/MLMG/MLNodeHelmDualCstVel.cpp: MLNodeHelmDualCstVel::Fsmooth"]}
{"id": "C139", "title": "Transfer between the grids of the multigrid solver", "statement": "The restriction keeps constants and a quarter of the sum, and is up to the factor four the transpose of bilinear interpolation. The interpolation leaves masked nodes alone, adds the coarse value in common nodes, never leaves the range of the surrounding coarse values, balances the fluxes between two coarse nodes, and is bilinear for constant coefficients. Coarse coefficients combine the fine ones in series and in parallel and lie between them.", "quantifier": "all fields, positive coefficients, masks, periodic grids of any size", "why_tests_cant": "These are identities and bounds for every field and coefficient.", "anchors": ["src/AMReX/MLMG/MLNodeHelmDualCstVel_2D_K.cpp: mlndhelm_restriction", "src/AMReX/MLMG/MLNodeHelmDualCstVel_2D_K.cpp: mlndhelm_interpadd_aa", "src/AMReX/MLMG/MLNodeHelmDualCstVel_2D_K.cpp: mlndhelm_interpadd_ha", "src/AMReX/MLMG/MLNodeHelmDualCstVel_2D_K.cpp: mlndhelm_avgdown_coeff_x", "src/AMReX/MLMG/MLNodeHelmDualCstVel_2D_K.cpp: mlndhelm_avgdown_coeff_y"]}
{"id": "C140", "title": "Walls in the multigrid solver", "statement": "Filling the points next to walls gives each the value of its mirror image, including corners, for cells and nodes, for every order in which the points are visited. The scaling of right hand sides at walls is two for every wall of a node, independent of the boxes, and can be taken back. In a closed box with zero velocity behind the walls the weighted right hand sides have the sum zero.", "quantifier": "all domains, boxes, sets of walls, fields, visiting orders", "why_tests_cant": "Corner cases of the in-place parallel loop depend on sets of walls and orders; the sum is a statement about every velocity field and size.", "anchors": ["src/AMReX/MLMG/MLNodeHelmDualCstVel_2D_K.cpp: mlndhelm_bc_doit", "src/AMReX/MLMG/MLNodeHelmDualCstVel_K.cpp: mlndhelm_scale_neumann_bc", "src/AMReX/MLMG/MLNodeHelmDualCstVel.cpp: MLNodeHelmDualCstVel::compRHS"]}
{"id": "C141", "title": "HDF5 output shows the finest data", "statement": "The array written by the HDF5 output has in every cell the value of the finest level that covers the cell, for the whole grid and for any box, with and without cut cells, whichever ranks own the patches; the array can be located and its axes read from what the file declares.", "quantifier": "all hierarchies with disjoint patches, refinement ratios, distributions over ranks, boxes, values", "why_tests_cant": "Levels, patches and owners can be combined in unboundedly many ways; a test sees one distribution.", "anchors": ["src/AMReX/output/WriteHdf5Impl.cpp: WriteHdf5UnRestricted", "src/AMReX/output/WriteHdf5Impl.cpp: WriteHdf5RestrictedToBox", "src/AMReX/cutcell/output/WriteHdf5Impl.cpp: WriteHdf5UnRestricted", "src/AMReX/cutcell/output/WriteHdf5Impl.cpp: WriteHdf5RestrictedToBox", "src/AMReX/PatchHierarchy.cpp: GetExtents", "src/AMReX/PatchHierarchy.cpp: CreateHdf5Database"]}
{"id": "C142", "title": "Probes record the state of the finest cell", "statement": "The state recorded for a probe is, in every component, the state of the finest cell around it; points outside record zero; each tube is probed at the coordinates configured for it.", "quantifier": "all hierarchies, distributions over ranks, probes, states", "why_tests_cant": "Needs every position of a probe relative to cells and levels and every value including zero.", "anchors": ["src/AMReX/PatchHierarchy.cpp: GatherStates", "src/AMReX/cutcell/PatchHierarchy.cpp: GatherStates", "src/AMReX/cutcell/output/LogProbes.cpp: LogProbesOutput::LogProbesOutput"]}
{"id": "C143", "title": "Time series in HDF5 files and files of earlier runs", "statement": "After any number of outputs the k-th entries of data, times and cycles belong to the k-th output. If the process ends in the middle of an output, earlier entries are intact, an entry in cycles implies complete entries in the others, and the lengths differ by at most one. A new run never destroys a file of an earlier one and writes to a file of its own.", "quantifier": "all numbers of outputs, crash points, sets of existing files, paths", "why_tests_cant": "Crash points and histories of runs cannot be enumerated.", "anchors": ["src/AMReX/PatchHierarchy.cpp: CreateHdf5Database", "src/AMReX/PatchHierarchy.cpp: OpenHdf5Database", "src/AMReX/PatchHierarchy.cpp: WriteToHDF5", "src/AMReX/output/WriteHdf5.cpp: WriteHdf5::WriteHdf5", "src/AMReX/cutcell/output/LogProbes.cpp: RenameFileIfExists", "src/AMReX/cutcell/output/LogProbes.cpp: LogProbesOutput::operator()"]}
{"id": "C144", "title": "Averages over a box", "statement": "The average of the data over a box of cells is the arithmetic mean over its cells, whichever ranks own the patches and however the domain is decomposed; it lies between the extreme values, and the average of states of positive density and pressure has positive density and pressure.", "quantifier": "all boxes, decompositions into patches, distributions over ranks, fields", "why_tests_cant": "Decompositions, distributions and fields are unbounded; a test sees one of them.", "anchors": ["include/fub/AMReX/AverageState.hpp: AverageState", "include/fub/AMReX/AverageState.hpp: AccumulateState"]}
{"id": "C145", "title": "Feedback from the flow to the control of the gas turbine", "statement": "The control is given the mass flow that leaves towards the turbine, the state of the gas there, and the mean fluxes at both ends of the tubes, independent of patches and ranks. For a single tube the content of the turbine plenum changes in every history by what the tube supplies minus what the turbine takes, stays as it is if both agree, and remains positive.", "quantifier": "all flows, decompositions, numbers of tubes, states and histories of time steps", "why_tests_cant": "Conservation over arbitrary histories and independence of the decomposition are statements about infinitely many runs.", "anchors": ["include/fub/equations/perfect_gas_mix/PlenaControlFeedback.hpp: ControlFeedback::operator()", "include/fub/equations/perfect_gas_mix/PlenaControlFeedback.hpp: ControlFeedback<1>::UpdateTurbinePlenumState", "include/fub/equations/perfect_gas_mix/PlenaControlFeedback.hpp: ControlFeedback<1>::operator()"]}
{"id": "C146", "title": "Initial data from a one-dimensional profile", "statement": "Each cell that is not covered gets the mean of the samples of the profile inside of it, covered cells stay as they are; the values lie within the range of the profile, so that positive profiles give positive states.", "quantifier": "all profiles, cells, volume fractions", "why_tests_cant": "Every position of cell faces relative to the samples matters.", "anchors": ["src/AMReX/cutcell/initial_data/InterpolateFrom1d.cpp: InterpolateFrom1d::InterpolateFrom1d", "src/AMReX/cutcell/initial_data/InterpolateFrom1d.cpp: InterpolateFrom1d::InitializeData"]}
{"id": "C147", "title": "Results of parallel loops and means over boxes do not depend on threads", "statement": "Sums, minima and other associative commutative reductions collected by several threads are those of all contributions, for every number of threads and every assignment of work; the mean over a box of cells is the arithmetic mean over its cells for every number of threads and ranks; the box of the inner layers at a side consists of exactly these layers.", "quantifier": "all numbers of threads, schedules, contributions, distributions over ranks, boxes and fields", "why_tests_cant": "Schedules and distributions cannot be enumerated by tests.", "anchors": ["include/fub/ext/omp.hpp: OmpLocal", "include/fub/ext/omp.hpp: OmpLocal::Accumulate", "include/fub/ext/omp.hpp: OmpLocal::Min", "src/AMReX/MultiFabUtilities.cpp: GetMeanValueInBox", "src/AMReX/MultiFabUtilities.cpp: GetInnerBox"]}
{"id": "C148", "title": "Source terms and output of several tubes", "statement": "The time step allowed for the source terms of several tubes does not exceed that of any tube. Advancing them either advances every tube exactly once by its own source term or returns the first error with later tubes untouched. The chosen output block is the plenum for number zero, the k-th tube for number k, and nothing if it does not exist.", "quantifier": "all numbers of tubes, source terms, time steps, failures and block numbers", "why_tests_cant": "Failures of arbitrary user-defined source terms at arbitrary positions cannot be enumerated.", "anchors": ["include/fub/AMReX/multi_block/MultiBlockSourceTerm.hpp: MultiBlockSourceTerm::ComputeStableDt", "include/fub/AMReX/multi_block/MultiBlockSourceTerm.hpp: MultiBlockSourceTerm::AdvanceLevel", "src/AMReX/multi_block/MultiWriteHdf5.cpp: MultiWriteHdf5::operator()"]}
{"id": "C149", "title": "Tubes around a line through points", "statement": "A point is inside of a tube exactly if it lies between the cutting planes of some segment and at most the radius away from the axis of that segment; the line through the given points is inside. A file of lines with coordinates gives these points in their order.", "quantifier": "all lists of points in the plane, radii, positions and files", "why_tests_cant": "Points, positions and file contents are unbounded.", "anchors": ["src/geometry/ExpandTube.cpp: ExpandTube::ExpandTube", "src/geometry/ExpandTube.cpp: ExpandTube::operator()", "src/geometry/ExpandTube.cpp: GetPlanes", "src/geometry/ExpandTube.cpp: ReadPointsFromFile"]}
{"id": "C150", "title": "Fields saved for debugging are written completely", "statement": "After any sequence of saved fields, the fields at a location are written in one group per layout of patches; each group contains exactly the requested components and names of all fields with that layout, in the order of saving, and the geometry of the first one. Averages of face data lie between the values at the faces.", "quantifier": "all sequences of saved fields, layouts, locations, components and names", "why_tests_cant": "Sequences of saved fields are unbounded; a test checks some of them.", "anchors": ["src/AMReX/output/DebugOutput.cpp: DebugSnapshot::SaveData", "src/AMReX/output/DebugOutput.cpp: DebugSnapshot::GatherFields", "src/AMReX/output/DebugOutput.cpp: Partitions_", "src/AMReX/output/DebugOutput.cpp: AverageFaceToCell"]}
{"id": "C151", "title": "Fields and snapshots for debugging do not overwrite each other", "statement": "Before fields are written, equal names are made different by numbers in the order of their occurrence and other names stay as they are; the names of averages differ from each other; a new snapshot always gets a directory of its own.", "quantifier": "all lists of names, all histories of snapshots", "why_tests_cant": "Coincidences of generated and given names are rare and cannot be enumerated.", "anchors": ["src/AMReX/output/DebugOutput.cpp: DebugSnapshot::MakeUniqueComponentNames", "src/AMReX/output/DebugOutput.cpp: DebugStorage::AddSnapshot", "src/AMReX/output/DebugOutput.cpp: DebugStorage::FlushData"]}
{"id": "C152", "title": "A cone is given by a signed distance", "statement": "The value of the cone geometry is not positive exactly on the solid cone with the given base, radius and height, and negative in its interior; asking for the other side changes the sign only; the absolute value is the distance to the surface.", "quantifier": "all cones with positive radius and height, all points", "why_tests_cant": "The surface is a continuum of points and distances need a minimum over all of them.", "anchors": ["src/geometry/Cone.cpp: ConeIF::ComputeDistanceTo", "src/geometry/Cone.cpp: ConeIF::ConeIF"]}
{"id": "C153", "title": "Regions are covered by boxes of cells", "statement": "The box of cells for a region contains every cell of the domain that meets the region; it is in the domain, never empty and larger than the cells with their middle in the region by at most one layer. The coarse geometry covers exactly the given coordinates with the given numbers of cells; a domain around a center contains exactly the points within the radii.", "quantifier": "all geometries in any dimension, all regions and points", "why_tests_cant": "Regions and cell sizes are real numbers; off by one errors appear for particular positions only.", "anchors": ["src/AMReX/CartesianGridGeometry.cpp: BoxWhichContains", "src/AMReX/CartesianGridGeometry.cpp: GetCoarseGeometry", "src/AMReX/CartesianGridGeometry.cpp: DomainAroundCenter"]}
{"id": "C154", "title": "A wall on a part of the boundary fills exactly its ghost cells", "statement": "A wall given by a section of cells next to the domain fills exactly the ghost cells of the section that belong to a patch: with the reflection of the mirror image at the boundary of the domain if neither cell is covered by the embedded boundary, with zeros otherwise. Cells of the domain keep their values on every level, and a call for another direction does nothing.", "quantifier": "all equations, patches, sections, ghost widths, embedded boundaries and levels in any dimension", "why_tests_cant": "Patches, sections and embedded boundaries combine without bound; reading cells that are filled in the same loop would show up only in some of the combinations.", "anchors": ["include/fub/AMReX/cutcell/boundary_condition/ReflectiveBoundary2.hpp: ReflectiveBoundary2::FillBoundary", "src/boundary_condition/ReflectiveBoundary.cpp: ReflectIndex"]}
{"id": "C155", "title": "Log files keep what was logged", "statement": "Exactly the given ranks log, and a record is written to the log file exactly if its channel is not black listed, however the list is ordered. Every message is written with the prefix in front of each of its lines. An old log file is kept under the first free number, no other file changes, and a directory in the place of the log file is left alone.", "quantifier": "all option lists, ranks, records, messages and contents of the file system", "why_tests_cant": "Black lists, messages and directories are unbounded; binary search fails for particular lists only.", "anchors": ["src/ext/Log.cpp: InitializeLogging", "src/ext/Log.cpp: FormatLogs_", "src/ext/Log.cpp: LogOptions::LogOptions"]}
{"id": "C156", "title": "Spaces without walls exist for every level", "statement": "For every coarse domain and refinement ratio, the spaces built for up to 29 levels contain, in the space of each level, an entry for the domain of this level and of every coarser one, with 4 * 2^k ghost cells on level k. A space of an arbitrary domain either has all required coarse levels, each of which covers the domain exactly, or the program aborts.", "quantifier": "all domains in all dimensions, refinement ratios for each axis, numbers of levels and ghost cells", "why_tests_cant": "Domains, ratios and depths are unbounded; a wrong entry shows up only for particular hierarchies.", "anchors": ["src/AMReX/cutcell/AllRegularIndexSpace.cpp: AllRegularIndexSpace::AllRegularIndexSpace", "src/AMReX/cutcell/AllRegularIndexSpace.cpp: BuildRegularSpace", "src/AMReX/cutcell/AllRegularIndexSpace.cpp: AllRegularIndexSpace::getLevel"]}
{"id": "C157", "title": "Mass flow boundary of embedded geometries", "statement": "The inner state is the mean over the cells of the box weighted with volume fractions, however the cells are distributed over processes. A ghost state is found exactly if the required velocity is below the speed of expansion into vacuum; it has the entropy of the inner gas and the required velocity along the normal. The ghost state has the required mass flow and the total enthalpy of the inner gas.", "quantifier": "all gases with constant ratio of heat capacities, inner states, mass flows, areas, directions, distributions over processes", "why_tests_cant": "Conservation must hold for every state; the failure vanishes in the steady states tests look at.", "anchors": ["src/AMReX/cutcell/boundary_condition/MassflowBoundary.cpp: MassflowBoundary::FillBoundary", "src/AMReX/cutcell/boundary_condition/MassflowBoundary.cpp: AverageState", "src/AMReX/cutcell/boundary_condition/MassflowBoundary.cpp: TotalVolume"]}
{"id": "C158", "title": "Fluxes for exactly the faces with a full stencil", "statement": "Fluxes are computed for exactly those faces of a tile whose whole stencil is covered by the data, from the cells of this stencil in order, for every box, stencil width and direction; the result does not depend on how the faces are divided into tiles, and no cell outside of the data is read.", "quantifier": "all boxes, tiles, stencil widths, directions, dimensions, flux functions and data", "why_tests_cant": "Off-by-one errors appear only for particular combinations of tile, ghost cells and width.", "anchors": ["src/AMReX/ViewFArrayBox.cpp: GetCellsAndFacesInStencilRange", "include/fub/AMReX/FluxMethodAdapter.hpp: FluxMethodAdapter::ComputeNumericFluxes"]}
{"id": "C159", "title": "Program options are what the script says", "statement": "Every global variable of the script whose name is not reserved, and every entry of a dictionary, is an option with this value; all other options have their defaults, also for each bound of a box. Vectors are given by one number for each axis, and invalid directions are rejected. All processes get the script as process 0 sees it, or all of them report an error.", "quantifier": "all scripts, dictionaries, names, defaults, conversions, numbers of processes and what each of them sees of the file", "why_tests_cant": "Names, dictionaries and process counts are unbounded; a process that waits forever shows up only if the file is missing on some machine.", "anchors": ["src/ext/ProgramOptions.cpp: ParsePythonScript", "src/ext/ProgramOptions.cpp: GetOptions", "src/ext/ProgramOptions.cpp: ToMap", "src/AMReX/ViewFArrayBox.cpp: GetOptionOr", "src/ext/Mpi.cpp: ReadAndBroadcastFile"]}
{"id": "C160", "title": "Initial data with embedded boundaries", "statement": "For a Riemann problem, cells with fluid have the left state exactly if their centre is inside of the geometry and the right one otherwise; for a Python function they have the state of its answer at their centre. Covered cells are zero and nothing else changes, whatever the type of the patch, the tiles or earlier uses of the equation. A missing or unusable answer for a cell with fluid ends the program; without a function the gas is air at rest.", "quantifier": "all geometries, volume fractions, tilings, patch types that fit, functions, gas models and earlier states of the reactor", "why_tests_cant": "Three branches must agree for every patch and tiling; a stale reactor shows up only for particular orders of cells.", "anchors": ["include/fub/AMReX/cutcell/initial_data/RiemannProblem.hpp: RiemannProblem::InitializeData", "include/fub/AMReX/cutcell/initial_data/PythonData.hpp: PythonData::InitializeData", "include/fub/AMReX/initial_data/PythonData.hpp: PythonData::InitializeData"]}
{"id": "C161", "title": "Refinement of a fixed region", "statement": "A method that refines a fixed box of the coarsest level tags on every level exactly the cells which are parts of cells of this box, in every patch and tile, and leaves other tags alone; so the tagged regions of the levels nest.", "quantifier": "all boxes, ratios of each axis, levels, patches, tiles and earlier tags", "why_tests_cant": "Wrong bounds show up only for particular levels, ratios or signs of indices; a test looks at a few boxes.", "anchors": ["src/AMReX/tagging_method/ConstantRegion.cpp: ConstantBox::TagCellsForRefinement", "src/AMReX/cutcell/tagging_method/ConstantRegion.cpp: ConstantBox::TagCellsForRefinement", "src/SAMRAI/tagging_method/ConstantBox.cpp: ConstantBox::TagCellsForRefinement"]}
{"id": "C162", "title": "Ignition of several tubes", "statement": "When several tubes are ignited by one source term, each tube is ignited as if it were alone: in exactly those calls in which a single ignition with its options would, on the levels it has. Tubes never share time points. The first error is returned, tubes in front of it are advanced and those behind it untouched. A restart from a saved state continues the run.", "quantifier": "all numbers of tubes, options, levels, histories of calls, changes of the tubes between calls and points of a restart", "why_tests_cant": "Shared state between tubes shows up only for particular histories over levels and tubes.", "anchors": ["src/AMReX/multi_block/MultiBlockIgniteDetonation.cpp: MultiBlockIgniteDetonation::AdvanceLevel", "include/fub/AMReX/multi_block/MultiBlockIgniteDetonation.hpp: MultiBlockIgniteDetonation::serialize"]}
{"id": "C163", "title": "Completion of conservative states on patches", "statement": "Computing complete states from conservative ones gives the same result with vectors and cell by cell: each state of a patch is completed, nothing else is written and no access is out of bounds, for every length of the rows and whatever earlier calls left in the arrays.", "quantifier": "all equations whose completion depends on the conservative state only, all widths of vectors, numbers and lengths of rows and earlier contents of the arrays", "why_tests_cant": "The loop over chunks has a remainder for each length of a row; a test uses a few grid sizes, and stale lanes are invisible unless they are written.", "anchors": ["include/fub/CompleteFromCons.hpp: CompleteFromConsFn", "include/fub/CompleteFromCons.hpp: CompleteFromCons", "include/fub/StateArray.hpp: LoadN"]}
{"id": "C164", "title": "The table with the state of the control unit", "statement": "The output of the control unit is a table with one row, time and number of cycles for each call in the order of the calls, and below each heading is the value that it names. Starting a run never destroys a file: an older file at the path gets a new name, if the path is no file the table goes to a new file, everything else stays, so tables of earlier runs survive restarts.", "quantifier": "all states of the control unit, histories of calls and restarts, and file systems with a free name", "why_tests_cant": "Headings and columns are written in different places and must agree for each state; collisions of names depend on the history of runs.", "anchors": ["src/equations/perfect_gas_mix/PlenaControlOutput.cpp: ControlOutput", "src/equations/perfect_gas_mix/PlenaControlOutput.cpp: GetFieldMap"]}
{"id": "C165", "title": "Layout of probes in a file", "statement": "In a file of probes the entry for a field and a probe is the value of this component at this probe, taken from the finest level on which it is not zero, and the entry of the coordinates for an axis and a probe is the one from the options: probes, fields, levels and axes are never mixed up.", "quantifier": "all numbers of probes, components, levels and axes, all values and orders in which they are recorded", "why_tests_cant": "Four different memory layouts must fit together for all extents; mistakes cancel for one probe or equal extents.", "anchors": ["src/AMReX/cutcell/PatchHierarchy.cpp: GatherStates", "src/AMReX/cutcell/output/PerfectGasProbesOutput.cpp: PerfectGasProbesOutput", "include/fub/core/mdspan.hpp: layout_left"]}
{"id": "C166", "title": "Copies of a patch level", "statement": "A copy of a patch level agrees with the original: number, time, cycles, boxes, owners and all values in cells, nodes and faces, for every data description; so does a copy of a copy.", "quantifier": "all data descriptions, dimensions, boxes, values and contents of new memory", "why_tests_cant": "The combination of cells, nodes and faces of each dimension matters; tests copy levels of one application.", "anchors": ["src/AMReX/PatchHierarchy.cpp: PatchLevel::PatchLevel", "src/AMReX/PatchHierarchy.cpp: PatchLevel::operator="]}
