# Formal model of djgroen/flee in Rocq

The properties are listed in `properties.jsonl`; their status and theorem names are in
`MANIFEST.json`. This file says what is modelled, how each property is proved, what is
trusted, and where the code disagrees with what its users are told. Attempts to break the
theorems with wrong programs are recorded in `seeded/LOG.jsonl`.

## Layout

All files are in `rocq/theories`.

| Files | Content |
|---|---|
| `Base.v` | exceptions as values, Python strings with identity, dictionaries, numbers, random streams |
| `State.v` | settings, locations, links, agents, ecosystem; field updaters (generated from the field lists) |
| `Moving.v`, `Crawling.v`, `Scoring.v`, `Diagnostics.v` | `moving.py`, `crawling.py`, `scoring.py`, `Diagnostics.py` |
| `Flee.v` | `flee.py`: Person, Location, Link, Ecosystem; `spawning.refresh_spawn_weights` |
| `DataTable.v`, `Spawning.v`, `InputGeography.v` | `datamanager/DataTable.py`, `handle_refugee_data.py`, `spawning.py`, `InputGeography.py` |
| `Dates.v`, `DataFiles.v` | dates and file reading of `datamanager/DataTable.py` and `handle_refugee_data.py`; `read_period.py` |
| `Pflee.v`, `Coupling.v`, `Settings.v` | `pflee.py`, `coupling.py`, `SimulationSettings.py` |
| `Api.v`, `ParApi.v` | the calls a (serial, parallel) program can make, one step of each, and histories of calls (`run`, `prun`) |
| `Spec*.v` | small specifications used in the statements; they import the model's data types and, where a statement is about a function, its name |
| `Properties*.v` | the property theorems and, beside each, examples that meet their hypotheses; each theorem is closed by `exact` and followed by `Print Assumptions` |
| `*Witness.v`, `Example*.v`, `Defaults.v` | concrete programs used by the examples and the refutations |
| all other files | lemmas |

Where to look for a property:

| Properties | Statements | Specification | Proofs |
|---|---|---|---|
| C01-C06, C45 | `PropertiesCore` | `SpecAgents`, `SpecHistory` | `Inv`, `InvMoves`, `InvStruct`, `Frames`, `Traffic`, `CoreProofs` |
| C14, C17-C19 | `PropertiesMoving` | `SpecChoice` | `ChoiceProofs` |
| C15, C16 | `PropertiesRoutes` | `SpecRoutes`, `SpecWeights` | `RouteProofs`, `WeightFacts` |
| C07-C13 | `PropertiesTravel` | `SpecTravel`, `SpecDecide` | `Travel`, `Terminate`, `Terminate2`, `TravelRun`, `TravelProps`, `StepRel`, `Detached`, `Decide`, `DecideProps`, `Diverge` |
| C20-C24 | `PropertiesClosures` | `SpecClosures`, `SpecCalls` | `Closures`, `Naming`, `ClosureLoops`, `ClosureEnd`, `ClosurePlaces`, `OffRoad`, `ClosureProps` |
| C25-C28, C30, C32, C35, C47 | `PropertiesZones` | `SpecZones` | `Profile`, `Zones`, `ZoneProps` |
| C29, C31, C33, C34, C48, C49 | `PropertiesSpawning` | `SpecData`, `SpecSpawn` | `DataProofs`, `SpawnProofs` |
| C42, C43, C46 | `PropertiesReports` | `SpecArrivals`, `SpecReports` | `ArrivalProofs`, `ReportProofs` |
| C36-C38, C50, C51 | `PropertiesParallel` | `SpecParallel` | `Skeleton`, `ParProofs`, `ParInv`, `ParSteps`, `ParProps`, `ParCounts`, `ParTotals`, `ParSync`, `ParFinal` |
| C40 | `PropertiesSchedule` | `SpecSchedule` | `Schedule` |
| C39, C52, C53 | `PropertiesCoupling` | `SpecCoupling` | `CouplingText`, `CouplingMean`, `CouplingRun` |
| C41 | `PropertiesCrawl` | `SpecCrawl` | `CrawlProofs` |
| C44 | `PropertiesSettings` | `SpecSettings` | `SettingsProofs`, `SettingsFacts`, `SettingsMain`, `SettingsMore`, `SettingsRecord` |
| C54-C56 | `PropertiesNetwork` | `SpecNetwork`, `SpecSpawn` | `NetworkProofs`, `SettlerProofs`, `NetworkWitness` |
| C57, C58 | `PropertiesWeights` | `SpecWeights`, `SpecReports` | `WeightProofs`, `WeightFacts`, `WeightWitness` |
| C59-C63 | `PropertiesData` | `SpecDates`, `SpecFiles`, `SpecData` | `DateProofs`, `PeriodProofs`, `FileProofs`, `AddProofs`, `TableProofs`, `DataWitness` |
| C64, C65 | `PropertiesFloods` | `SpecFloods`, `SpecSpawn` | `FloodProofs`, `FloodWitness` |
| C66-C68 | `PropertiesRun` | `SpecRun` | `RunScript`, `Analysis`, `RunProofs`, `AnalysisProofs`, `RunWitness` |
| C69 | `PropertiesSerial` | `SpecSerial` | `SerialRel`, `SerialSteps`, `SerialEvolve`, `SerialRun`, `SerialWitness` |
| C70-C72 | `PropertiesRunPar` | `SpecRunPar`, `SpecRun` | `RunPar`, `DayChain`, `RunParSetup`, `RunParBuild`, `RunParProofs`, `RunParLines`, `RunParWitness` |
| C73 | `PropertiesLinkLog` | `SpecTraffic` | `TrafficProofs`, `LinkLogProofs`, `LinkLogWitness` |
| C74 | `PropertiesAcled` | `SpecAcled` | `Acled`, `AcledProofs`, `AcledWitness` |
| C75 | `PropertiesColumns` | `SpecColumns` | `ColumnProofs`, `ColumnWitness` |
| C76 | `PropertiesDue` | `SpecColumns` | `DueProofs`, `ColumnWitness` |
| C77 | `PropertiesExchange` | `SpecExchange` | `ExchangeProofs`, `GhostProofs`, `ExchangeWitness` |
| C78, C79 | `PropertiesAgentLog` | `SpecAgentLog` | `AgentLog` (model), `LogFrame`, `LogHistory`, `LogTextProofs`, `LogRun`, `LogWitness` |
| C80 | `PropertiesQuiet` | `SpecQuiet` | `QuietReads`, `QuietCalls`, `QuietRun`, `QuietBack`, `QuietScript`, `QuietWitness` |
| C81 | `PropertiesTurns` | `SpecTurns` | `CouplingFiles` (model), `TurnsProofs`, `TurnsWitness` |
| C82 | `PropertiesDemographics` | `SpecDemographics` | `Demographics` (model), `DemoProofs`, `DemoWitness` |
| C83 | `PropertiesMuscle` | `SpecCoupling`, `SpecExchange` | `Muscle` (model), `MuscleProofs`, `MuscleWitness` |
| C84 | `PropertiesExchangeLog` | `SpecExchangeLog` | `ExchangeLog` (model), `XLogProofs`, `XLogWitness` |
| C85 | `PropertiesValidation` | `SpecValidation` | `Validation` (model), `ValidationProofs`, `ValidationReport`, `ValidationFacts`, `ValidationWitness` |
| C86 | `PropertiesMicro` | `SpecMicro` | `MicroGeography` (model), `MicroProofs`, `MicroWays` (with the examples) |
| C87 | `PropertiesGraph` | `SpecGraph`, `SpecClosures` | `GraphProofs` |
| C88 | `PropertiesLinkText` | `SpecLinkText`, `SpecAgentLog` | `LinkLogText`, `LinkTextProofs`, `SumProofs`, `LinkTextWitness` |
| C89 | `PropertiesCombined` | `SpecCombined` | `CombinedOutput`, `CombinedProofs`, `CombinedWitness` |
| C90 | `PropertiesMap` | `SpecMap` | `MapLists`, `MapProofs`, `MapWitness` |
| C91 | `PropertiesCurves` | `SpecCurves`, `SpecValidation` | `ErrorCurves`, `CurvesProofs`, `CurvesWitness` |
| C92 | `PropertiesPrint` | `SpecPrint`, `SpecGraph` | `GraphPrint`, `PrintProofs` |
| C93 | `PropertiesJoint` | `SpecJoint`, `SpecExchange`, `SpecTurns` | `JointProofs`, `JointWitness` |

## Modelling decisions

* **Shallow embedding.** Each Python function is a total Gallina function of the
  same branching structure. A Python exception is an `Err` value; a `while` loop or
  an unbounded recursion takes a fuel argument and returns `Err OutOfFuel`, and the
  theorems prove that this value does not occur (or, for a divergence, that it
  occurs for every fuel). After an exception the state is not kept: a history of
  calls ends there.
* **Objects.** Locations, links and dictionaries that Python shares by reference are
  heap cells addressed by index; an agent refers to a location or link by index. A
  link closed by the program is copied, as in the code, and the old object stays in
  the heap as long as agents are on it. `agent.location = None` is modelled by
  `PGone i`, where the ghost `i` is the camp in which the agent was deactivated.
* **String identity.** `flee.py` compares names with `is not` in
  `_remove_link_1way`/`_reopen_link_1way`. Names are therefore pairs of a value and an
  object identity; `==` compares values, `is` compares identities.
* **Numbers.** Python integers are `Z`. Floating point numbers are exact rationals
  `Q`: rounding, overflow, infinities and NaN are not modelled. `**` and the
  great-circle distance are oracles (explicit arguments of the functions); what a
  theorem assumes about them is a hypothesis of the theorem.
* **Randomness.** `random.random()` reads the next element of an arbitrary stream;
  `random.choices` is modelled as CPython implements it on top of it. Numpy
  draws (`choice`, `randint`, `poisson`, pandas `sample`) have their own streams.
  Theorems quantify over all streams; where needed they assume that the elements of
  the stream are in [0,1).
* **Input/output.** Printing is dropped. CSV and YAML parsing is trusted; the model
  starts from the rows or the dictionary these libraries return. Log files are the
  lists of their data lines.
* **MPI.** The ranks of `pflee.py` interact through collective operations only, so a
  parallel run is a list of local states and collectives are functions on that list.
  Overflow of 32 bit buffers is not modelled.
* **Settings.** A call takes the settings that hold when it is made, so they may change
  between calls. `Settings.v` models how a settings file becomes such a record.

## Modelled and not modelled

Modelled, function by function (each definition cites its lines): all of `moving.py`,
`scoring.py` and `crawling.py`; `flee.py` except `print`, `printInfo`, `printComplete`,
`Location.calculateDistance` (an oracle), `SetConflictMoveChance`, `SetCampMoveChance`,
`Link.setAttribute`, `Link.get_distance` and `getRankN`; `pflee.py` except the printing
methods, `getRankN` and the timing of communication; `spawning.py` except `spawn_agents` (which calls a method that does not exist) and
`getAttributeRatio` (`moving.py` refers to it without importing its module);
`InputGeography.py` except the file
handling; `DataTable.py` except `dump` and printing; `handle_refugee_data.py`;
`read_period.py`; `calc_date_difference.py` (it prints `subtract_dates`); of `coupling.py` the coupled locations, the text format, the combination of instances, the exchange with coupling
type "file", the waiting for files, the exchange through MUSCLE3 managers (sending and receiving left to MUSCLE3), the exchange logs and the combined output file; `SimulationSettings.py`; of `Diagnostics.py` the agent log and the
link log; `runscripts/run.py`; `runscripts/run_par.py`; `postprocessing/analysis.py` except `calculate_ln_accuracy_ratio`;
`postprocessing/extract-validation-results.py` except the plots; `postprocessing/plot_flee_output.py` except the drawing; `postprocessing/analyze_graph.py` except the drawing; `micro_InputGeography.py`; of `pmicro_flee.py` `linkUp` and the
lengths of roads in the weather;
`preprocessing/acled2locations.py` except the population services on the web.

Not modelled: `postprocessing/` but for the measures above, of `pmicro_flee.py` the geometry behind the bounds of rain and the nearest point of a river, of `coupling.py`
`reuse_coupling`, the set-up of MUSCLE3 and plots; the other run scripts and the tests.

Simplifications in the records: an attribute that a constructor creates only under some
setting (`incoming_journey_lengths` with the camp log, `cumNumAgentsByAttribute` with
the link log) always exists in the model, so an `AttributeError` that would follow from
switching such a log on in the middle of a run is not modelled.

## How each property is proved

| Id | Modelled by | Proof |
|---|---|---|
| C01-C04 | all API operations as a step function over histories of calls | one invariant (head counts, positions, flags) kept by every call, by induction over histories |
| C05, C06 | `evolve`, `deactivate`; frames of all other calls | frame lemmas per call, induction over histories |
| C07, C11, C13 | `Person.evolve`, `finish_travel`, `take_next_step` | relation between the states before and after a day (`StepRel`), invariant on closed links |
| C08 | `finish_travel`, constant speed | induction over days on the distance covered; floor arithmetic |
| C09, C10 | `finish_travel` with fuel | measure on the distance left in the day; counterexamples for the documented limits |
| C12 | `calculateMoveChance`, `Person.evolve` | case analysis for every random number |
| C14, C17-C19 | `moving.py` helpers | algebra over Q, induction over lists |
| C15, C16 | `calculateLinkWeight`, `selectRoute` | refinement to an inductive path relation; fuel shown sufficient by counting locations not yet on the path |
| C20-C24 | closures | loop invariants; permutation round trips; divergence for the cases that do not terminate |
| C25, C26, C35, C47 | location changes, conflict zones, `linkUp` | exact effect and frame; induction over histories |
| C27, C28, C32 | spawn weights, numpy choice, decay list | induction over lists and streams |
| C29-C31, C48, C49 | spawning | invariants over days; induction over agents added |
| C33, C34 | `DataTable` | piecewise linear specification; telescoping sum |
| C36-C38, C50, C51 | `pflee.py` | invariants over lists of processes, arithmetic of the partition, all-reduce as sum |
| C39, C53 | coupling text format, mean | string induction (printing and parsing of integers, splitting) |
| C52 | exchange on a parallel run | composition of clear, insert and update |
| C40 | `AddNewConflictZones` | invariant over days and interleaved calls |
| C41 | `crawling.py` | the crawl explores the same paths as the specification and keeps a running maximum |
| C42 | `scoring.py` | closed form of the score, frame |
| C43, C46 | arrival statistics, agent log | ghost count of trips that end in camps; list refinement |
| C44 | `ReadFromYML` | the reader equals a fixed list of assignments; last write wins |
| C54 | `addLocation`, `Location.__init__`, `updateLocationScore` on the new location | direct; words of the type and the resulting flags are specified by a table of words |
| C55 | `StoreInputGeographyInEcosystem` and the readers of the location, route and closure files, from rows of cells on | induction over the rows of each table, with a relation `Linked` that says what a road adds |
| C56 | `ReadAgentsFromCSV` from rows of cells on, `addAgent` | induction over rows; the relation `grown` of C49 composes |
| C57 | `getEndPointScore` with all its rules | factor by factor, in both directions; loop over forecast days by induction |
| C58 | `calculateMoveChance` with the flood rules | as C57 |
| C59 | `subtract_dates`, `steps_to_date`, `strptime`, `strftime`, `read_sim_period` | ordinals as in `datetime`; the calendar is specified by the next day of a day; induction over days |
| C60 | `DataTable.__init__`, `ConvertCsvFileToNumPyTable`, `_processEntry`, `override_input` from rows of cells on | induction over rows, both directions |
| C61 | `AddCSVTables` | invariant over the rows of the second series |
| C62 | `correctLevel1Registrations`, `ReadL1Corrections` | induction over rows and corrections, both directions |
| C63 | `getMaxFromData`, `is_interpolated` | induction over rows |
| C64 | `UpdateLocationAttributes`, `AddNewConflictZones`, attribute dictionaries as heap objects | loop invariant over the locations not yet visited; dictionaries are distinct |
| C65 | `spawn_daily_displaced`, flood branch | loop invariant: locations not yet visited have their population and attributes |
| C66 | all of `run.py` on the rows of its input files | induction over the days; invariant of the loop ties the data to that of the start and the counters to those of `spawning.py` |
| C67 | `run.py`, `spawn_daily_displaced`, `add_initial_refugees` | induction over the days with C50's balance for one day |
| C68 | `analysis.py` | rounding lemmas, algebra over Q |
| C69 | `pflee.py` with one process against `flee.py` | simulation: a relation between the two states kept by every call, induction over the program |
| C70 | `run_par.py` on a list of processes: set-up, morning on each process, collective `evolve`, evening | induction over the days: all processes share total, debt and data; the people follow `total_agents` |
| C71 | as C70 | the chain of registered totals (`DayChain`) is the same on all processes; every new agent goes to exactly one |
| C72 | two runs of `run_par_script`, and `run_script` | the set-ups are alike (same map, camps and number of people), the chains are functions of the data |
| C73 | link counters and attribute tables, `write_links` | events (attributes, link) of each agent in turn; the counters are a fold over the events; calls other than evolve keep them |
| C74 | `acled2locations.py`; the order of `sort_values` among rows of one date is an argument | dates by the calendar of C59; first row per region in a sorted table is a minimum |
| C75 | `ReadConflictInputCSV`, `ReadAttributeInputCSV`, `_ReadMajorLinksFromCSV`, `ReadClosuresFromCSV`, `ReadLocationChangesFromCSV` | induction over rows and cells; keys of the table by the heading |
| C76 | `AddNewConflictZones`, `StoreInputGeographyInEcosystem` | calls ordered by the rows; a text that is a number has no letter, so column 4 never says conflict |
| C77 | `Couple` of two runs, `addGhostLocations`, `addMicroConflictLocations` | people counted per location before and after, using C39 for the text and C52 for each side; sums over names regrouped by location |
| C78 | the lines of agents.out over histories | invariant of histories: every line tells the agent of its number; main lines of an agent are an unbroken run of days (C46 for one step) |
| C79 | the text of agents.out (`AgentLog`), the attributes of spawned agents | splitting of printed lines; attribute names are kept by every step; in the main program they are those of the demographics |
| C80 | all API operations and `run.py` at two settings that differ in log levels | a simulation relation (the world without its logs) kept by every call, in both directions |
| C81 | programs, folder and schedules (`CouplingFiles`): opening, closing, polling and reading of files as separate steps | invariant of executions against the side-by-side run; progress of the program that is furthest behind, by a measure |
| C82 | the readers of demographics files, names of files as strings, pandas frames, `sample` (`Demographics`) | string induction on file names; induction over the files; bisection of the running sums |
| C83 | the managers and instances of a run coupled through MUSCLE3 (`Muscle`), built on the text functions of `Coupling` | what a text says about a name does not depend on who reads it (induction over lines); the joined message is read back; then the theorems on files |
| C84 | the three exchange logs, the files they are saved to and `readCSVLogFiles` (`ExchangeLog`) | rows of the logs by induction over the run; the text of numbers is split back; columns by induction over names and instances |
| C85 | `extract-validation-results.py` on the table that the main program prints (`Validation`) | columns found by their last letter and the camp; every array is a map over the lines; scaled errors by the facts of C68; totals by induction over the camps |
| C86 | `micro_InputGeography.py`; of `pmicro_flee.py` `linkUp` and `get_distance` (`MicroGeography`) | relation between rows and what they add, by induction over the rows, with the lemmas of C55; case analysis for the weather |
| C87 | `Ecosystem.export_graph` on the state of any history | the structural invariant of C01 gives success; the edges from the open roads of C20 and C35 |
| C88 | `write_links_par` as text, on top of the lines of C73 | reading the text back (as in C79); the days of the lines and the sums over values by induction over histories |
| C89 | `sumOutputCSVFiles` on the frames that pandas reads | what is written is the frame read last; all means exist if the columns agree, so no error |
| C90 | `MakeLocationList`, `MakeLocationColorsList` | induction over the lines; a new name goes to the end of a dictionary |
| C91 | `plot_flee_output.py` on the table of a run, without the drawing | names of columns taken apart into words; sums over camps as functions of the line; triangle inequality for the bound |
| C92 | `print_graph` and `print_graph_nx` on the exported graph | filter of the edges by name is the edges of the location; last write to a dictionary, repeated writes change nothing |
| C93 | two simulations of C77 as programs of C81, for any number of days | the state at the end does not depend on the schedule (C81); induction over the days with the balance of one exchange (C77) |

## Where the code disagrees with what is claimed

Proved as `…_refuted` theorems (a concrete program in the model shows the disagreement):

* C09: with a link of length 0 (and one of length 0 back) a time step does not terminate.
* C10: an agent can cover more than `max_move_speed` in a day, and
  `recent_travel_distance` can exceed 1.0.
* C12: with awareness level 0 nobody ever leaves, whatever the move chance.
* C14: with a capacity buffer of 1.0 a full camp has multiplier 1.
* C19: `pruneRoutes` mixes up routes and weights when two offered routes are equal, and
  fails on an empty list.
* C20: with `twoway=True` only the reverse direction is closed; a link is not found by an
  equal string that is another object (as names read from a CSV file are); an unknown start
  point acts on the first location.
* C21: `reopen_location(twoway=False)` does not terminate.
* C23: `close_location` does not terminate on a location with a self-link and leaves
  one-way neighbours connected if links were removed asymmetrically.
* C25: `change_location_type(…, "conflict")` always fails; an unknown name changes the
  first location; `open_camp` does not clear the IDP mark.
* C26: `add_conflict_zone(change_movechance=False)` does not make a conflict zone; ending a
  conflict in a camp turns it into a town as well.
* C28: `pick_spawn_locations` can return the same location twice (its documentation says
  unique).
* C30: agents are still created when the population is exhausted.
* C34: the difference on day 0 includes the "total" column with `SumFromCamps`; with
  `start_empty` the total is not offset.
* C36: the balance of agents over processes is lost by clearing locations and by closing roads.
* C37: the two latency modes differ if there are no locations; `numIDPs()` counts every
  agent once per process; so does `numAgentsSpawned` after a step.
* C39: a coupled location with a comma in its name is never read.
* C40: an entry equal to 0.000001 neither starts nor ends a conflict; a conflict zone listed
  with 0 from the first day on stays one.
* C41: a stored major route lacks its first stop; stored routes use outdated scores of
  locations updated later in the same step.
* C42: with the flood forecaster a location without forecast flood gets score 0.
* C44: `camps_are_sinks` is never found in the file (the code looks for "camps_are_sicks");
  flood keys of a file read earlier stay in force.
* C46: `granularity: region` makes the agent log fail; so does the log on day 0 without agents.
* C50: agents on a road that was closed are missing in the total.
* C52: without MPI the exchange fails as soon as one agent is kept; a coupled location
  without an entry in the input fails.
* C53: the result depends on the order of the instances: a name that the first instance
  does not give is an error.

Noticed while modelling and part of the model, without a theorem of their own:

* `selectRoute` returns `None` when there are links but no routes; the next line then raises
  `TypeError`. A `None` route also arises with `FixedRoutes` and no stored routes.
* The default attribute dictionary of `addLocation` and of `linkUp` is one object shared by
  all locations (links) created without attributes.
* Deactivated agents stay in the head count of their camp.
* `deactivation_probability` read from a CSV file is a string and raises `TypeError`.
* `Match*Ethnicity` raises `NameError` (module not imported). `UsePopForLocWeight` uses
  `min(1, pop)`. `StayCloseToHome` measures the distance to the current place.
* `forced_redirection` is stored and never used.
* Links of type 1 in routes.csv create two pairs of links.
* `AddNewConflictZones` without a conflict file tests columns 4 and 5 (latitude and type)
  where type and date are meant, so no conflict ever starts from locations.csv.
* The message for a conflict table that is too short uses an undefined variable.
* `correctLevel1Registrations` fails if no row has the given date or only the first has.
* `AddCSVTables` fails if the second table starts later than the first, and drops its rows
  after the end of the second.
* In parallel runs `camps_are_sinks` fails at the first agent in a camp (`random` is not
  imported), `addAgent` needs a population above 1, and spawn weights are not refreshed by
  `evolve`.
* `sys.exit()` without a status is used for errors, so the exit code is 0.
* The interpolation of data in floating point can differ by one from the exact value the
  model uses (`int((1/49)*49)` is 0), and the assertion in `getCapMultiplier` can fail by
  rounding.

* `StoreInputGeographyInEcosystem` tests the redirection mark with `if ... == 1`, then `if ... == 2 ... else`: a mark 1 builds the road twice, once with and once without redirection (C55_one_road_refuted, InputGeography.py 528-551).
* StayCloseToHome divides by the distance to the agent's present location, not its home (C57_home_refuted, moving.py 49-58).
* UsePopForLocWeight uses min(1.0, population), so populations above one do not matter (C57_population_refuted, moving.py).
* The MatchCampEthnicity, MatchTownEthnicity and MatchConflictEthnicity rules call `spawning`, which moving.py does not import: they raise a NameError (C57_ethnicity_refuted).
* With the flood forecaster on the move chance is multiplied by the forecast: nobody leaves a place without a flood forecast, even if it is flooded or in conflict (C58_dry_forecast_refuted).
* The mark `forced_redirection` of links is never read when routes are chosen: redirections, and closures of kind remove_forced_redirection, have no effect (C24_redirection_refuted; flee.py 653 says all agents are routed through such links).
* `override_input` appends a column "total (modified input)" and sets a flag, but nothing reads either: the totals stay those of the original data (C60_override_refuted, DataTable.py 283-303).
* `_processEntry` reads `row[0][0]` before it looks at the cell: a row with an empty first cell raises IndexError, except in the first line (C60_empty_cell_refuted, DataTable.py 88).
* `AddCSVTables` fails with IndexError if the first series starts earlier, since `last_c2` has shape (1,2) (C61_start_refuted, line 133); on days that only the second series has it adds the next value of the first series (C61_sum_refuted); it drops the rows of the first series after the end of the second (C61_end_refuted) and repeats days if the second series ends later (C61_days_refuted).
* `correctLevel1Registrations` crashes with UnboundLocalError if no row but the first is on the date (C62_no_row_refuted, handle_refugee_data.py 90).
* `getMaxFromData` may return the value of a day after the requested time span (C63_span_refuted, handle_refugee_data.py 111-114).
* Flood levels of locations added without attributes are all that of the last such location, since they share the default dictionary of the constructor (C64_shared_refuted, flee.py `Location.__init__`, InputGeography.py 607-620).
* Runs with conflict- or flood-driven spawning print total error 0.0, no registered people and no debt on every line, whatever the data and the camps are (C67_driven, run.py 112-115: `refugees_raw` stays 0).
* With conflict- or flood-driven spawning `EmptyCampsOnDay0` does not change the data columns, since day 0 is subtracted only after `get_daily_difference` has run once (C66_lines, `data_shown`).
* `calculate_MASE` divides the mean error of the forecast over the whole period by that of the naive forecast over the period after the start of the forecast, so a forecast equal to the naive one need not get 1 (C68_mase_naive_refuted, analysis.py 137-153).
* On one process `pflee.py` checks the capacity of a camp against the head counts of the last synchronisation, so on one day any number of agents enters a camp with one place left, unlike in `flee.py` (C69_capacity_refuted).
* `pflee.py` does not reset the list of places visited (flee.py 1652, missing at pflee.py 875): with `log_levels.agent` above 1 `agents.out` repeats the stops of all earlier days in each block (C69_stops_refuted).
* With `FixedRoutes` and work split by location, only the process owning a location renews its stored routes; after a road is closed the other processes still offer it, and their agents who choose it go nowhere (C38_stored_routes_refuted).
* `run_par.py` line 65 adds to the variable `output`, which does not exist: with `log_levels.idp_totals` above 0 the program fails with a NameError before the first day (C70_idp_totals); `run.py` works.
* `flee.py` gives a location of unknown type (say `village`) the move chance 1.0, `pflee.py` the default move chance; below 0.005 such a location becomes a camp in `run_par.py` only, with its own column and agents on day 0 (C72_village_refuted).
* When a border is closed while agents are on the road, the total printed by `run_par.py` misses them and the next agents are given to the wrong processes (C72_closures_refuted, C36_closing_refuted).
* `acled2locations.py` takes the absolute value of the days between an event and the start date, so an event before the start becomes a conflict after it (C74_after_refuted).
* `acled2locations.py` discards the result of `sort_values` in `filter_table`, after all but one event of a region have been dropped: the option `fatalities` gives the same file as `earliest` (C74_options, C74_fatalities_refuted).
* `acled2locations.py` drops the columns `admin2` and `location` before `filter_table` asks for them: every level other than `admin1` ends the program (C74_level_refuted). With pandas 2.0 or later `DataFrame.append` does not exist, and the program ends in the same way for every level.
* `AddNewConflictZones` without a conflict file looks for `conflict` in column 4 of locations.csv, the second coordinate, and for the date in column 5, the type. Columns 5 and 6 are meant: conflict zones with a later date are stored as towns and never become conflict zones (C76_dates_refuted). `getConflictLocationNames` has the same fault.
* The day numbers in the first column of the conflict file are not read: rows are numbered as they come (C75_day_numbers_refuted). A row that ends early makes all later values of the missing names one day early (C75_short_row_refuted).
* Comments in the file of major routes are tested for but kept; a route turned into a comment stays, in reverse, a route of its last location, leading to a name that starts with `#` (C75_major_comments_refuted). A blank line there ends the program when the network is stored (C75_major_blank_refuted).
* `Couple` removes the agents of all coupled locations, but sends only those of outgoing ones: people who are in an incoming location when two simulations exchange are in neither of the two afterwards (C77_stranded_refuted). Micro conflict locations are coupled as incoming.
* After `clearLocationsFromAgents` agents get numbers that are already in agents.out: earlier lines are about other people (C78_clear_refuted).
* The heading of agents.out has the attributes of the first agent only. If agents.csv and demographics files name different attributes, values stand under wrong headings and lines have more cells than the heading (C79_agents_csv_refuted). Texts are not quoted: a comma in a name shifts the rest of the line (C79_comma_refuted).
* With agent logging on, a process without agents at time 0 stops with an IndexError (`agents[0]` in `write_agents_par`).
* Logging can stop a simulation that runs without it: at time 0 without agents (IndexError), with spawn granularity "region" (NameError in the agent log), and with link log level 2 when an attribute value is a list (TypeError: unhashable) (C80_nobody_refuted, C80_region_refuted, C80_lists_refuted).
* Coupling through files has a race: `waitForInputFiles` waits until a file exists, but `writeOutputToFile` creates it before its text is in it. A program that reads in between stops with a KeyError (C81_open_file_refuted) or, with several instances, silently averages over the other instances only (C81_instances_refuted).
* Files of an earlier run in out/file/coupled are read as if they were of this run (C81_old_files_refuted); output is appended to them.
* Programs with different coupling intervals wait for each other forever (C81_stuck).
* Demographics files are read from `input_csv` in the working directory, not from the input directory given to the run script, and only when initial refugees are added: a run without camps never reads them (C82_no_camps_refuted).
* The attribute of a demographics file is the first word of its name only: `demographics_home_region.csv` gives attribute `home`, and drawing fails with a KeyError because the heading is `home_region`; two such files replace each other (C82_words_refuted).
* With a fixed random seed the attributes of people depend on the order in which the system lists the demographics files, since `glob` does not sort (C82_order_refuted).
* A place that has the name of an attribute takes the values of the attribute as weights (C82_place_name_refuted).
* A table whose columns are all numbers, some of them not whole, turns whole attribute values into floats (`all_floats` in Demographics.v).
* With MUSCLE3 an incoming location whose name the manager of the other side does not have makes every exchange fail with a KeyError, though the same simulations work through files (C83_as_files_refuted). `run_mscale.py` gives each manager the names of its own side only.
* `multiscale/run_mscale.py` calls `pick_conflict_location` and `refresh_conflict_weights` of the ecosystem, which exist nowhere in the repository: the multiscale run script fails on its first day at this commit. It is not modelled for that reason; the coupling it uses is.
* `readCSVLogFiles` fails with an IndexError if there was only one exchange, or if no coupled location is outgoing, since `numpy.loadtxt` then returns an array of one dimension (C84_short).
* Two locations coupled under the same name get one column when the exchange log is read, and every later name gets the numbers of the location before it (C84_same_name_refuted).
* `logExchangeData` reads `total_agents`, which only the parallel ecosystem has: with the sequential one coupling with logs (the default) fails with an AttributeError.
* The validation report fails with an IndexError for runs of 30 days or fewer, and for runs without camps (C85_short).
* A camp whose name contains " sim" is counted three times in the validation report, since its data and error columns also count as simulated ones (C85_sim_refuted); a name with two spaces in a row makes the report fail with a KeyError (C85_spaces_refuted); a name that contains "numAgents" is left out.
* The sloped naive forecast of the validation report is the number of the training day times the day, not a line through it, so it is 7 or 30 times the data on the training day and makes the scaled error small (C85_sloped_refuted). That of day 30 asks if the number of day 7 is positive and is nan if the number of day 30 is 0.
* One camp whose scaled error is undefined, for instance because its numbers in the data do not change, makes the total nan (C85_total_refuted).
* `micro_InputGeography.py` reads locations with the reader of the base class but expects the columns in an older order (population in the second column, coordinates in the third and fourth). A country name in the third column ends the program with a ValueError (C86_country, C86_same_file_refuted).
* In the micro model the type of a road is given to one of its two links only, so in bad weather the way back over a crossing follows the rain and not the river (C86_crossing_refuted).
* `Link_weather_coupling.get_distance` requires the day as an argument, and its `IncrementNumAgents` takes no agent; `moving.py`, `crawling.py` and `flee.py` call `get_distance()` and `IncrementNumAgents(agent)`. Every step over such a road is a TypeError (seen in the source, not a theorem).
* `Ecosystem.export_graph` never reads its argument `use_ids_instead_of_names`: the vertices are names in either case (seen in the source, not a theorem).
* The link log writes an attribute value 30 and an attribute value "30" in the same way, so that two lines of a link cannot be told apart (C88_same_cell_refuted); a comma in the name of a place shifts the columns of the line (C88_comma_refuted).
* `runscripts/run_UNHCR_uncertainty.py` uses `SimulationSettings` without importing it and calls `ReadFromCSV`, which does not exist; `flee/config_template/run.py` and `run_par.py` read `SimulationSettings.FlareConflictInputFile`, which nothing sets (seen in the source, not theorems).
* `sumOutputCSVFiles` computes the mean over the instances and throws it away: it writes the file of the last instance (`df.to_csv` in place of `frame.to_csv`; C89_mean_refuted). It also does not wait for the other instances to end, as their files exist from the start, so the combined file can lack days (C89_all_days_refuted).
* `MakeLocationColorsList` is in the order of `MakeLocationList` only if no name occurs twice (C90_twice_refuted), and `MakeLocationList` stops at an empty coordinate, which the simulation reads as 0 (C90_empty_refuted).
* `plot_flee_output.py` takes the first word of a column as the name of the camp: a camp with a name of two words ends it with a KeyError before the error is computed (C91_words), and so does the column "total IDPs" that the run writes when it counts IDPs (C91_idps). A camp called Date is not drawn.
* The curve of the error divides by the total of the camps in the data, the column "Total error" of the run by the registered people: they differ (C91_total_error_refuted).
* On a day without registered people the run writes 0 as the total of the data, whatever the camps have, and the error of that day is then the number of people in the data (C91_no_total_refuted).
* `postprocessing/CalculateDiagnostics.py` uses variables n1 to n6 that are never set, and `Location.SetCampMoveChance` reads a setting that does not exist (seen in the source, not theorems).
* `print_graph_nx` keeps one edge for several roads between the same places, with the length of the last, and cuts lengths off to whole numbers (C92_parallel_refuted).
* In a coupled run people vanish from both simulations if they have not left an incoming place by the next exchange, which clears it (C93_vanish_refuted).

## Trusted base

* Coq 8.16.1's kernel (with `vm_compute`, which is used in examples and refutations).
* `Print Assumptions` prints "Closed under the global context" for every theorem of every
  `Properties*.v` file: no axiom is used, neither of the standard library nor of another.
  Only the Coq standard library is imported.
* The correspondence between the Python code and the model, which is by inspection; the
  simplifications are those of the sections above and of the comments at the definitions.
* The behaviour of Python, numpy, pandas, MPI and the csv/yaml libraries as described above.
