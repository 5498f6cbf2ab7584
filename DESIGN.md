# Formal model of terragraph-planner in Coq: design

The model lives in `rocq/theories`. The code of `/repo` is Python; it is read as
text and never executed. Each definition in a model file cites the file and lines it models.

## Conventions

* One topic = `XModel.v` (executable definitions only), `XSpec.v` where a separate
  specification is needed, `XProofs.v` (lemmas), `XProps.v` (property theorems only,
  each closed by `exact`, with `Print Assumptions` and an `Example` for its hypotheses).
* Exceptions are values (`result A := Ok a | Err e`); a Python method that mutates `self`
  returns the new state. When the point of a property is what is left behind by a failing
  call, the failing branch also carries the partially mutated state.
* Python dictionaries are association lists in insertion order (`Dict.v`), so iteration
  order is modelled. Sets whose iteration order is unspecified are modelled as lists, and
  theorems quantify over all orders.
* Numbers: `float` is modelled by exact rationals (`Q`) or, where square roots and
  trigonometry occur, by real numbers (`R`). Rounding, NaN and infinities are not modelled
  except where a comment says so.
* The MILP solver is not modelled: theorems about the optimisation models quantify over
  every assignment satisfying the generated constraints.
* If a property is false of the code, the model keeps the fault and a theorem `*_refuted`
  exhibits a witness; the strongest true variant is proved as `*_partial`.

## Plan per property

| Id | Modelled | Proof |
|----|----------|-------|
| C01 | the topology store and its three indexes, every mutator | invariant over all operation sequences |
| C02 | `remove_site` cascade | exact characterisation of each table afterwards |
| C03 | same store | witness of failure; proved variant for sites that had no sectors |
| C04 | link ids as strings | injectivity of `tx-rx` for dash-free ids; lookup theorem from C01 invariant |
| C05 | neighbour queries | equivalence with stored links; wireless predecessor refuted |
| C06, C07 | status setters of site, sector, link | induction over assignment sequences; C07 refuted by site demotion |
| C08 | BFS of `hops_from_pops` with its queue and hop dictionary | loop invariant, termination measure, equals shortest path length |
| C09 | marking pass | exactness when no exception; witness of partial marking |
| C10, C11, C12 | angle, zone, geohash arithmetic over `Q` | case analysis; induction over bits |
| C13, C14 | MCS table lookups, power limits | induction over tables |
| C15 | cycle finding is an oracle returning any cycle; pruning loop | measure = number of positive edges; invariants by induction |
| C16-C19 | generated constraints as predicates over assignments | theorems for all satisfying assignments |
| C20-C26 | LOS helper algorithms | loop invariants |
| C27, C28 | LOS geometry over `R` | real algebra |
| C29 | sector assignment loops | argmin invariants |
| C30-C32 | loaders: names, KML layers, escaping, MCS table | induction over input lists/strings |
| C33 | availability simulation over an arbitrary random stream | interval accounting invariant |
| C34-C36 | capex, deployment rules, demand | folds against declarative sums/sets |
| C37 | raster index arithmetic | rounding lemmas over `Q` |
| C38-C40 | interference filter, solution application, failure analysis | case analysis, restoration lemmas, witnesses |
| C41 | parameter checks and equality | witnesses and decision lemmas |
| C42 | sector placement | dynamic-programme optimality |
| C43-C45 | `sort`, `remove_sector` and the queries of the topology store | permutation lemmas; exact result sets from the C01 invariant |
| C46 | constructor checks of links | case analysis over statuses |
| C47 | lazily filled coordinates of a location, `copy` | invariant over histories of reads; witness for overrides |
| C48, C49 | link budget with backoff over an MCS table | induction over the table; monotonicity; witnesses for tables with gaps |
| C50-C52 | reading a plan out of a solver answer, cost and coverage constraints | consequences of feasibility in exact arithmetic |
| C53 | flow problem of a planned network and the extracted flow | consequences of feasibility, C15 for the removal of loops |
| C54, C55 | window queries and resampling of elevation rasters | integer rounding lemmas |
| C56 | confidence of both LOS models against the cells of the zone | real algebra, witness for steep ellipsoids |
| C57-C59 | sector placement and assignment, client antennas | dynamic programme, case analysis, witnesses |
| C60 | input site entries to sites | induction over entries |
| C61-C63 | POP capacity bound, co-located sites, sectors of one node | sums over time shares, exact result sets |
| C64 | component counter | counting lemmas over tables without duplicates |
| C65 | adversarial links | cut arguments over the demand graph |
| C66, C67 | path, rain and oxygen loss over `R` | derivatives and monotonicity, witnesses |
| C68, C69 | layout of KML files, links of candidate topology files | induction over folders and records |
| C70 | status validation | exact characterisation of the accepted topologies |
| C71 | power control rounds for any interference function | invariant over rounds, stability |
| C72, C73 | statistics and metrics of the report | folds against declarative sums, counts and extrema |
| C74 | check of the sectors a site already has | arrangement against `between`/arcs up to whole turns; composed with C42's placement; the circular mean is an oracle, justified over the reals |
| C75 | redundancy problem, its reading, the levels | weighted cut argument over the multi-commodity flow (FlowCut.v): the reached set has every crossing link failed or unused; folds over locations for the reading; explicit feasible point for the first solve |
| C76 | the access network and the problem of proposing POPs | the site problem with a limit on POPs as goal; counting lemmas over the chosen sites, co-location groups, computed networks as witnesses |
| C77 | the loops that copy chosen DNs as POPs | the resulting sites, sectors, links and demands characterised exactly by loop invariants; totality under stated conditions; networks that break the claim of faithful copies |
| C78 | the constraints of C16-C19 and C76, all of them at once | the builders are total; a plan without traffic satisfies every constraint iff its sites form an allowed choice and active links are two-coloured, so feasibility reduces to that choice plus budget or POP count; a triangle of cables without an answer |
| C79 | the same problems, and a description of good plans in terms of sites, links, sectors and consumers only | each group of constraints follows from the description (the supply of the source by summing conservation over all places; bounds by the total demand by conservation), and the description follows from the constraints, so both are equivalent; a validated topology with a lone candidate client at the end of an active link that is left out |
| C80 | the constraints of the deployment step other than capacity under interference, over the same network | each rule from the constraints that mention it, sums of 0-1 values by counting; witness with two sectors of one node, one on and one off |
| C81 | capacity classes, linearised products of airtime and polarity, interference sums; signal strengths and device tables are parameters | the products are exact for 0-1 polarities; the class of positive rate is unique and silences the other channels; every disturbing link of the specification is among those summed; witness with traffic of twice the airtime |
| C82 | reading the answer of the deployment step: links, sectors, channels, sites, polarities, airtime | the two passes over the sectors as a fold with an invariant per sector; witnesses with one sector of a node off, and with a link without sectors that has airtime on two channels, which the reader rejects; without such links every answer is read, from the class constraints of C81 |

## Trusted base

* The Coq 8.16.1 kernel and its standard library, read through `coqc` and `coqchk`.
* The definitions of the `*Model.v` files are a manual transcription of the Python text. Nothing checks them
  against an execution of the code. Each definition cites the lines it transcribes and names simplifications.
* The definitions of the `*Spec.v` files, which give the statements their meaning.
* No axiom is declared. `Print Assumptions` below each property theorem lists one of five sets:
  * nothing ("Closed under the global context") for all theorems not named below;
  * `ClassicalDedekindReals.sig_forall_dec` and `FunctionalExtensionality.functional_extensionality_dep` (axioms behind
    Coq.Reals) for the theorems of C37, C54, C55 and the three oxygen theorems of C66;
  * these two, `ClassicalDedekindReals.sig_not_dec` and `Classical_Prop.classic` for the theorems of C27, C28 and C56, the other
    theorems of C66, all of C67, `C41_accepted_never_breaks_arithmetic_refuted`;
  * these without `classic` for `C74_mean_is_the_centre`;
  * `FunctionalExtensionality.functional_extensionality_dep` alone for the theorems of C76 on answers and on failure.
* Libraries used: the standard library only. Real arithmetic uses Coq.Reals with `lra`, `nra` and `field`.

## Modelled code

| Theories | Code (under `terragraph_planner/`) |
|---|---|
| Topology*, Status* | common/topology_models (all), status setters and constructor checks |
| Graph*, Nx*, Adv* | reachability, topology_networkx.py, get_adversarial_links |
| Geo* | common/geos.py, geohash and angle helpers |
| Rf*, RfLoss*, Tpc*, Interf* | common/rf/link_budget_calculator.py, topology_interference.py, power control of topology_operations.py |
| Setup*, Ilp*, Extract*, Prune*, FlowOpt* | ilp_models: optimization_setup.py, site and cost and coverage models, flow_optimization.py, reading of solutions |
| Redun*, FlowCut | redundancy_optimization.py 48-627 except objectives and solver calls, the levels of _run_redundancy_step |
| Pop* | pop_proposal_optimization.py 141-306 except the coverage objective and solver calls |
| Dup* | pop_proposal_optimization.py 40-138 (link budgets, azimuths, channels and names left out) |
| Solve* | no further code: feasibility of the problems of Ilp* |
| Fit* | no further code: the problems of Ilp* characterised |
| Chan* | interference_optimization.py 164-672 and the sector constraints of network_optimization.py 300-425 (objective and solver calls left out) |
| Sinr* | interference_optimization.py 673-1062 (conversion from decibels and azimuths are parameters) |
| Tune*, One* | interference_optimization.py 1084-1309 (zero entries for client polarities and imaginary sectors, shortage, objective value and cost left out; loop pruning as in Prune*) |
| Los*, Elev* | los: core.py, helper.py, both validators, fresnel_zone.py, elevation.py |
| Sec*, SiteSec*, Valid* | topology_preparation.py: sector placement, assignment, check of sectors read back, status validation |
| Input*, Kml*, LinkMap*, Conf* | data_io: loaders, serializer, KML and CSV records; configuration classes |
| Demand*, Ops*, Apply*, Deploy*, Count*, Avail*, Report*, Metric* | topology_demand.py, topology_operations.py, deployment_rules.py, counter, availability, report |

## Not modelled, or only as an oracle

* MILP solver: theorems hold for every assignment that satisfies the generated constraints. Optimality is assumed only where a
  theorem says so.
* GDAL/OGR, shapely, pyproj, scipy KD-trees: parameters of the model with the contract stated in the theorem.
* Floating point rounding. The tolerances the code itself uses (EPSILON, isclose) are modelled.
* networkx shortest paths and cycles: any function that returns paths or cycles of the graph. Tie-breaking is not fixed.
* Random numbers: an arbitrary stream. `multiprocessing`: an arbitrary order of completion.
* Logging, files, timing, plots and the console entry points.
* The heuristic that restricts the links of the redundancy problem (redundancy_optimization.py 630-893): an arbitrary restriction.
* Objective and rounds of the interference-minimising ILP (ilp_models/interference_optimization.py) and the output data frames.

## Findings

Behaviour of the code that contradicts the property a user would expect is proved as a `*_refuted` theorem with a concrete
witness. The notes of `MANIFEST.json` describe each in words.
