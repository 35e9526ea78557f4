{"id": "C01", "title": "Location head counts are exact", "statement": "After any sequence of API calls, Location.numAgents of every location equals the number of agents whose location is that location plus the number of agents that were deactivated there; it is never negative.", "quantifier": "every history of API calls (addLocation, linkUp, addAgent, insertAgent(s), evolve, closures, camp and conflict changes, settings changes), every random stream", "why_tests_cant": "Needs an invariant over unbounded call sequences and all random outcomes; a test samples a handful.", "anchors": ["flee/flee.py: Person.handle_travel, Person.__init__, Location.IncrementNumAgents, Location.DecrementNumAgents, Ecosystem.evolve, Ecosystem.addAgent, Ecosystem.clearLocationsFromAgents"]}
{"id": "C02", "title": "Link head counts are exact", "statement": "After any sequence of API calls, Link.numAgents of every link object (open, stored as closed, or already detached by a closure) equals the number of agents currently on that object; it is never negative.", "quantifier": "every history of API calls (addLocation, linkUp, addAgent, insertAgent(s), evolve, closures, camp and conflict changes, settings changes), every random stream", "why_tests_cant": "Closures replace link objects while agents are travelling on them; only an invariant over all interleavings of closures and steps covers this.", "anchors": ["flee/flee.py: Link.IncrementNumAgents, Link.DecrementNumAgents, Ecosystem._remove_link_1way, Ecosystem._reopen_link_1way, Person.handle_travel"]}
{"id": "C03", "title": "Evolve creates and destroys nobody", "statement": "Ecosystem.evolve keeps the number of agents (numAgents()), their order and their home locations; the sum of the head counts of all locations and all link objects always equals numAgents().", "quantifier": "every history of API calls (addLocation, linkUp, addAgent, insertAgent(s), evolve, closures, camp and conflict changes, settings changes), every random stream", "why_tests_cant": "Conservation must hold for every graph, policy and random stream.", "anchors": ["flee/flee.py: Ecosystem.evolve, Ecosystem.numAgents, Person.evolve, Person.finish_travel"]}
{"id": "C04", "title": "Travelling flag is consistent", "statement": "In every reachable state an agent is marked travelling if and only if its current location is a link; an agent that is neither is deactivated, and positions always refer to objects of the same ecosystem.", "quantifier": "every history of API calls (addLocation, linkUp, addAgent, insertAgent(s), evolve, closures, camp and conflict changes, settings changes), every random stream", "why_tests_cant": "Must hold at every point of every history.", "anchors": ["flee/flee.py: Person.handle_travel, Person.finish_travel, Ecosystem.evolve"]}
{"id": "C05", "title": "Deactivation is permanent and only happens in sink camps", "statement": "Agents leave the simulation only if camps_are_sinks is set and only from a camp; a deactivated agent is never moved or reactivated again, and still counts towards numAgents() and the camp head count. With camps_are_sinks off nobody is ever deactivated.", "quantifier": "every history of API calls (addLocation, linkUp, addAgent, insertAgent(s), evolve, closures, camp and conflict changes, settings changes), every random stream", "why_tests_cant": "A safety property over all future steps of all histories.", "anchors": ["flee/flee.py: Ecosystem.evolve (camps_are_sinks block)"]}
{"id": "C06", "title": "Clock advances by one", "statement": "Each evolve() advances Ecosystem.time by exactly one and timesteps_since_departure of each still active agent by exactly one; no other API call changes either.", "quantifier": "every history of API calls (addLocation, linkUp, addAgent, insertAgent(s), evolve, closures, camp and conflict changes, settings changes), every random stream", "why_tests_cant": "Universal over states and calls.", "anchors": ["flee/flee.py: Ecosystem.evolve"]}
{"id": "C07", "title": "Moves follow open links", "statement": "An agent standing in a location that starts to travel does so along a link that is in that location's list of open links at that moment; an agent that stops travelling stops in the end point of its link, or in the start point of its link if that link was closed meanwhile.", "quantifier": "all ecosystems, agents, times, random streams", "why_tests_cant": "Must hold for all graphs and route choices.", "anchors": ["flee/flee.py: Person.take_next_step, Person.finish_travel, Person.evolve"]}
{"id": "C08", "title": "Travel time of a link", "statement": "With a constant daily speed s > 0, an agent that enters a link of length D at the start of its travel and keeps travelling reaches the other side in exactly floor(D/s)+1 daily updates, not earlier and not later.", "quantifier": "all D >= 0, all s > 0, all random streams", "why_tests_cant": "Arithmetic fact over an infinite domain; off-by-one at exact multiples.", "anchors": ["flee/flee.py: Person.finish_travel"]}
{"id": "C09", "title": "A time step terminates", "statement": "If all links have lengths bounded below by some positive distance, the repeated hopping inside one time step terminates for every agent and every random stream, within ceil(speed/min length)+1 hops. (With zero-length links it need not terminate.)", "quantifier": "all graphs with positive link lengths, all random streams, all settings", "why_tests_cant": "Termination is not testable.", "anchors": ["flee/flee.py: Person.finish_travel, Person.evolve"]}
{"id": "C10", "title": "Distance covered per time step", "statement": "The distance an agent covers in one time step is always below twice its maximum speed, and recent_travel_distance stays below 2. The documented limits (one times the speed; range 0.0-1.0) do not hold for all graphs.", "quantifier": "all graphs, all random streams, any uniform speed", "why_tests_cant": "Needs an invariant over all multi-hop itineraries within a step.", "anchors": ["flee/flee.py: Person.finish_travel, Ecosystem.evolve, Person.__init__"]}
{"id": "C11", "title": "Links closed under way send agents back", "statement": "An agent on a link that is closed during its trip ends its trip at the start location of the link, never at the end location, and does not continue travelling in that time step; this holds also if the link is reopened in the meantime.", "quantifier": "all histories that close (and reopen) a link while agents are on it", "why_tests_cant": "Interleavings of closures with travel.", "anchors": ["flee/flee.py: Person.finish_travel, Ecosystem._remove_link_1way"]}
{"id": "C12", "title": "Move chance zero and one", "statement": "An agent in a location with effective move chance <= 0 never leaves it in that decision; with effective move chance >= 1 it always tries to leave, for all random outcomes. The default settings leave the location's own move chance unscaled.", "quantifier": "all random outcomes in [0,1), all populations and capacities", "why_tests_cant": "Boundary behaviour over a continuum of random outcomes.", "anchors": ["flee/flee.py: Person.evolve", "flee/moving.py: calculateMoveChance"]}
{"id": "C13", "title": "No agent sets out for a full camp", "statement": "An agent never enters a link if the last stop of its planned route is a camp whose capacity multiplier is below 0.5; its plan is dropped instead and it stays where it is.", "quantifier": "all ecosystems, routes and occupancies", "why_tests_cant": "Must hold for every occupancy level and route.", "anchors": ["flee/flee.py: Person.check_dest_is_full_camp, Person.take_next_step"]}
{"id": "C14", "title": "Capacity multiplier", "statement": "getCapMultiplier always returns a value in [0,1], never fails its own assertions, equals 1 for unlimited or sufficiently empty locations, equals 0 at or above capacity (for a capacity buffer below 1), and never increases when more agents arrive.", "quantifier": "all capacities, scalings, buffers, head counts", "why_tests_cant": "Universally quantified arithmetic.", "anchors": ["flee/moving.py: getCapMultiplier"]}
{"id": "C15", "title": "Candidate routes are real paths", "statement": "Every candidate route an agent considers starts with a neighbour of its location, follows open links only, ends in a non-marker location, and revisits no location (without self-links); its weight is the score of its end point divided by its total length.", "quantifier": "all graphs, awareness levels, agents", "why_tests_cant": "All paths of all graphs.", "anchors": ["flee/moving.py: selectRoute, calculateLinkWeight"]}
{"id": "C16", "title": "Route search terminates and is complete", "statement": "Route exploration terminates on every finite graph and every awareness level, and returns every loop-free path of open links within the awareness level, markers not counting towards it.", "quantifier": "all finite graphs, all awareness levels", "why_tests_cant": "Termination and completeness over all graphs.", "anchors": ["flee/moving.py: calculateLinkWeight"]}
{"id": "C17", "title": "Choice never takes a zero-weight option", "statement": "chooseFromWeights returns one of the offered options; if some weight is positive, an option with weight zero is never returned, whatever the random number; with no options it returns None.", "quantifier": "all weight lists with non-negative entries, all random outcomes in [0,1)", "why_tests_cant": "Continuum of random outcomes.", "anchors": ["flee/moving.py: chooseFromWeights"]}
{"id": "C18", "title": "Normalised weights are a distribution", "statement": "normalizeWeights returns as many weights as it got, they sum to one, are non-negative for non-negative input and keep the ratios of the input; with a zero sum all options get equal weight.", "quantifier": "all weight lists", "why_tests_cant": "Universally quantified arithmetic.", "anchors": ["flee/moving.py: normalizeWeights"]}
{"id": "C19", "title": "Pruning drops exactly the poor routes", "statement": "If all offered routes are different, pruneRoutes keeps exactly the routes with weight >= max/threshold, paired with their own weights and in order; the best route always survives; a threshold below 1.001 changes nothing.", "quantifier": "all weight and route lists, all thresholds", "why_tests_cant": "All lists; index-shifting loop.", "anchors": ["flee/moving.py: pruneRoutes"]}
{"id": "C20", "title": "Closing a link", "statement": "close_link/remove_link in one direction removes exactly the open links from the start to the end location, changes no other link or location, and reports whether it found one; an agent can no longer enter a removed link.", "quantifier": "all ecosystems with distinct names; name given as the location's own name object", "why_tests_cant": "All graphs with parallel links.", "anchors": ["flee/flee.py: Ecosystem._remove_link_1way, Ecosystem.close_link, Ecosystem.remove_link"]}
{"id": "C21", "title": "Closing and reopening restores the network", "statement": "Closing a link, border or location and reopening it restores the same set of open links (end points, lengths, traffic counters) up to order; nothing is left in the closed store that was not there before.", "quantifier": "all ecosystems without previously closed links of that kind", "why_tests_cant": "Round trips over all graphs.", "anchors": ["flee/flee.py: Ecosystem._remove_link_1way, Ecosystem._reopen_link_1way, Ecosystem.close_border, Ecosystem.reopen_border"]}
{"id": "C22", "title": "Border closure is exact and terminates", "statement": "close_border(A,B) always terminates; afterwards no open link leads from a location in country A to one in country B (nor back, if two-way), and all other links are untouched.", "quantifier": "all ecosystems with distinct location names", "why_tests_cant": "A while-loop over lists being rewritten by the loop body.", "anchors": ["flee/flee.py: Ecosystem._change_border_1way, Ecosystem.close_border"]}
{"id": "C23", "title": "Closing a location isolates it", "statement": "close_location(name) on a network built with linkUp (no self-links) terminates and leaves no open link into or out of the location, touching no other link; it reports whether the location exists.", "quantifier": "all symmetric ecosystems with distinct names", "why_tests_cant": "A while-loop over lists being rewritten by the loop body.", "anchors": ["flee/flee.py: Ecosystem._change_location_1way, Ecosystem.close_location"]}
{"id": "C24", "title": "Closure schedule", "statement": "enact_border_closures(t) changes nothing at times that are neither the start nor the end of a scheduled closure.", "quantifier": "all schedules and times", "why_tests_cant": "All schedules.", "anchors": ["flee/flee.py: Ecosystem.enact_border_closures"]}
{"id": "C25", "title": "Opening and closing camps", "statement": "open_camp and close_camp change only the named location; afterwards it is (not) a camp, (not) a town and has the corresponding move chance; change_location_type leaves exactly one type. (For a name that does not exist the code acts on the first location instead, see C25_unknown_name_refuted.)", "quantifier": "all ecosystems with distinct location names, all existing names", "why_tests_cant": "All states and names.", "anchors": ["flee/flee.py: Ecosystem.open_camp, Ecosystem.close_camp, Location.open_camp, Location.close_camp, Ecosystem._convert_location_name_to_index"]}
{"id": "C26", "title": "Conflict zones", "statement": "add_conflict_zone makes the first location of that name a conflict zone with the given intensity and the current time as its starting time; remove_conflict_zone ends it; other locations are unaffected.", "quantifier": "all ecosystems, names and intensities", "why_tests_cant": "All states.", "anchors": ["flee/flee.py: Ecosystem.add_conflict_zone, Ecosystem.remove_conflict_zone, Ecosystem.set_conflict_intensity"]}
{"id": "C27", "title": "Spawn weights", "statement": "After refresh_spawn_weights the spawn weight of each location is population*conflict*decay if it is a conflict zone, else zero, and the number of weights equals the number of locations; with conflict-driven spawning all are zero.", "quantifier": "all ecosystems, decay tables, times", "why_tests_cant": "All states.", "anchors": ["flee/spawning.py: refresh_spawn_weights", "flee/SimulationSettings.py: get_conflict_decay, get_location_conflict_decay"]}
{"id": "C28", "title": "Agents are spawned in conflict zones only", "statement": "pick_spawn_locations(n) returns exactly n locations of the ecosystem, all with positive spawn weight, for all random outcomes; it fails if the total weight is not positive.", "quantifier": "all ecosystems and random outcomes", "why_tests_cant": "Continuum of random outcomes.", "anchors": ["flee/flee.py: Ecosystem.pick_spawn_locations"]}
{"id": "C29", "title": "Refugee debt accounting", "statement": "Over any number of days of data-driven spawning, agents spawned minus outstanding debt equals the sum of the daily changes in the data; debt is never negative; the number spawned is the running maximum of the cumulative change (started at zero).", "quantifier": "all data series, all numbers of days", "why_tests_cant": "Unbounded histories.", "anchors": ["flee/spawning.py: spawn_daily_displaced"]}
{"id": "C30", "title": "Population bookkeeping when spawning", "statement": "With take_from_population, population plus agents spawned in a location stays constant as long as population is left, and population never becomes negative; without it population never changes.", "quantifier": "all histories of addAgent", "why_tests_cant": "Unbounded histories.", "anchors": ["flee/flee.py: Ecosystem.addAgent"]}
{"id": "C31", "title": "Conflict-driven spawning amounts", "statement": "With conflict-driven spawning in constant mode each conflict location spawns the integer part of rate*intensity agents per day, in pop_ratio mode the integer part of rate*intensity*population, and other locations none; the reported number of new agents is the total.", "quantifier": "all ecosystems and rates", "why_tests_cant": "All states.", "anchors": ["flee/spawning.py: spawn_daily_displaced"]}
{"id": "C32", "title": "Conflict decay lookup", "statement": "get_conflict_decay returns the entry of the interval containing the elapsed time, the last entry after the end of the list, and 1.0 without a list; it never fails for a positive interval and non-negative time; for a non-increasing list it is non-increasing in time.", "quantifier": "all lists, intervals and times", "why_tests_cant": "All times.", "anchors": ["flee/SimulationSettings.py: get_conflict_decay"]}
{"id": "C33", "title": "Interpolated data", "statement": "Interpolation of a data series returns the exact value on days with data, a value between the two neighbouring values on other days, the first value before and the last value after the data, and is monotone if the data are.", "quantifier": "all strictly increasing data series, all days", "why_tests_cant": "All series and days.", "anchors": ["flee/datamanager/DataTable.py: DataTable.get_interpolated_data"]}
{"id": "C34", "title": "Daily differences telescope", "statement": "The sum of get_daily_difference over days 1..T equals the interpolated total on day T minus that on day 0.", "quantifier": "all data tables and all T", "why_tests_cant": "Unbounded T.", "anchors": ["flee/datamanager/DataTable.py: DataTable.get_daily_difference"]}
{"id": "C35", "title": "Links are two-way", "statement": "linkUp(a,b,d) adds exactly one open link from a to b and one from b to a, both with length d, and changes nothing else; unknown names abort.", "quantifier": "all ecosystems", "why_tests_cant": "All states.", "anchors": ["flee/flee.py: Ecosystem.linkUp"]}
{"id": "C36", "title": "Parallel: one owner per agent, balanced load", "statement": "In a parallel run every added agent is stored on exactly one process; any sequence of calls that add agents, started in any state, shares them so that the numbers added to any two processes differ by at most one; over a whole program that neither closes roads nor clears locations the numbers held by any two processes differ by at most one.", "quantifier": "all process counts, all numbers of agents, all programs", "why_tests_cant": "All process counts and histories.", "anchors": ["flee/pflee.py: Ecosystem.addAgent, Ecosystem.insertAgent, Ecosystem.insertAgents"]}
{"id": "C37", "title": "Parallel: global head counts", "statement": "After updateNumAgents every process sees for each location and link the sum of the per-process head counts; both parallel modes (high_latency and low_latency) give the same counts.", "quantifier": "all process counts and local states", "why_tests_cant": "All process counts and distributions.", "anchors": ["flee/pflee.py: Ecosystem.updateNumAgents, CommWorld"]}
{"id": "C38", "title": "Parallel: location partition", "statement": "The location ranges assigned to processes are disjoint, cover all locations, and are the ranges gathered by synchronize_locations, so after synchronisation all processes hold the same scores.", "quantifier": "all process counts and location counts", "why_tests_cant": "All sizes.", "anchors": ["flee/pflee.py: Ecosystem.synchronize_locations, Ecosystem.evolve"]}
{"id": "C39", "title": "Coupling messages round-trip", "statement": "Reading the CSV text written by a coupled simulation gives exactly the number of agents of each of its outgoing locations, for the names known to the reader (which may couple other locations); empty lines, comments and rows of unknown names make no difference, and if the text is appended to an existing file the new numbers count.", "quantifier": "all tables with names free of separators", "why_tests_cant": "All strings.", "anchors": ["flee/coupling.py: CouplingInterface.generateOutputCSVString, extractNewAgentsFromCSVString"]}
{"id": "C40", "title": "Conflict schedule is followed", "statement": "When AddNewConflictZones is called for days 0,1,2,...,t with a conflict table, whatever else happens between these calls (apart from other conflict and camp changes), a listed location that was no conflict zone at the start is a conflict zone after day t exactly if its entry for day t is above the threshold 0.000001 (no entry being exactly the threshold). Its intensity is that of the first day of the present period of conflict. Locations that are not listed keep their intensity.", "quantifier": "all conflict tables and all t", "why_tests_cant": "Unbounded time.", "anchors": ["flee/InputGeography.py: AddNewConflictZones", "flee/flee.py: set_conflict_intensity"]}
{"id": "C41", "title": "Fixed routes are best routes", "statement": "With fixed routes and no major routes, generateLocationRoutes stores for each reachable location one real path, whose weight is the largest among all explored paths to that location.", "quantifier": "all graphs", "why_tests_cant": "All graphs.", "anchors": ["flee/crawling.py: generateLocationRoutes, calculateLocCrawlLinkWeight, _addLocationRoute"]}
{"id": "C42", "title": "Location scores", "statement": "updateLocationScore gives every location a positive score if the configured weights are positive, multiplies foreign and camp weights, and depends only on the location itself.", "quantifier": "all locations and settings", "why_tests_cant": "All settings.", "anchors": ["flee/scoring.py: updateLocationScore"]}
{"id": "C43", "title": "Arrival statistics", "statement": "Each step, the reported number of arrivals equals the number of trips that ended in a camp during the step, the buffers are emptied, and the average duration is the mean of the recorded durations (0 without arrivals).", "quantifier": "every history of API calls (addLocation, linkUp, addAgent, insertAgent(s), evolve, closures, camp and conflict changes, settings changes), every random stream", "why_tests_cant": "All histories.", "anchors": ["flee/flee.py: Ecosystem._aggregate_arrivals, Person.finish_travel"]}
{"id": "C44", "title": "Settings are read predictably", "statement": "Missing settings get their documented defaults, settings present are taken from the file, and the resulting behaviour does not depend on settings read earlier; mutually exclusive spawning flags abort.", "quantifier": "all settings files and previous settings", "why_tests_cant": "All combinations of keys.", "anchors": ["flee/SimulationSettings.py: ReadFromYML, fetchss"]}
{"id": "C45", "title": "Cumulative link traffic", "statement": "cumNumAgents of a link never decreases, survives closing and reopening, and is at least the number of agents on the link.", "quantifier": "every history of API calls (addLocation, linkUp, addAgent, insertAgent(s), evolve, closures, camp and conflict changes, settings changes), every random stream", "why_tests_cant": "Unbounded histories.", "anchors": ["flee/flee.py: Link.IncrementNumAgents, Ecosystem._remove_link_1way"]}
{"id": "C46", "title": "Agent log is complete", "statement": "Each step with agent logging writes exactly one line per active agent in order, with the agent's current position and home.", "quantifier": "all states", "why_tests_cant": "All states.", "anchors": ["flee/Diagnostics.py: write_agents_par"]}
{"id": "C47", "title": "Locations keep their identity", "statement": "Whatever is called later, a location keeps its number, name, region, country, coordinates and foreign mark; locations are never removed or reordered.", "quantifier": "all histories of API calls", "why_tests_cant": "Unbounded histories of calls.", "anchors": ["flee/flee.py: Ecosystem, Location"]}
{"id": "C48", "title": "Agents get attributes that occur where they live", "statement": "The demographic attributes drawn for a new agent have one value per demographics table, and each is a value with positive weight in the column of the agent's home location (or the Default column if there is none), whatever the random outcome.", "quantifier": "all demographics tables and random outcomes", "why_tests_cant": "Continuum of random outcomes.", "anchors": ["flee/spawning.py: draw_sample, draw_samples"]}
{"id": "C49", "title": "Initial refugees", "statement": "add_initial_refugees places in a location exactly the registered number of day 0 plus the initial IDPs of the location (none with EmptyCampsOnDay0), as fresh agents, and changes nothing else.", "quantifier": "all ecosystems, tables and settings", "why_tests_cant": "All states.", "anchors": ["flee/spawning.py: add_initial_refugees"]}
{"id": "C50", "title": "Parallel: total number of agents", "statement": "As long as no road is closed or reopened, numAgents() returns on every process the number of agents stored on all processes together.", "quantifier": "all parallel programs and process counts", "why_tests_cant": "Unbounded histories on any number of processes.", "anchors": ["flee/pflee.py: Ecosystem.numAgents, Ecosystem.updateNumAgents, Ecosystem.addAgent"]}
{"id": "C51", "title": "Parallel: a step keeps the agents", "statement": "A parallel time step keeps on each process the same agents in the same order, with their homes and attributes; each gets one step older, none is removed, deactivated or moved to another process.", "quantifier": "all parallel programs, process counts and random outcomes", "why_tests_cant": "Unbounded histories on any number of processes.", "anchors": ["flee/pflee.py: Ecosystem.evolve, Person.evolve, Person.finish_travel"]}
{"id": "C52", "title": "Coupling exchange", "statement": "In a parallel run, after an exchange each incoming coupled location holds exactly the number of agents read for it (with one instance: the number the other simulation sent), each purely outgoing coupled location holds none, and all other locations and roads keep their agents; between the coupling intervals nothing happens.", "quantifier": "all reachable parallel states, couplings, inputs and numbers of processes", "why_tests_cant": "Agents are spread over any number of processes.", "anchors": ["flee/coupling.py: CouplingInterface.Couple, addCoupledLocation", "flee/pflee.py: Ecosystem.clearLocationsFromAgents, insertAgents"]}
{"id": "C53", "title": "Combining several instances", "statement": "With several instances the number used for a name is within 1/2 of the mean of the numbers given for it, and between the smallest and the largest of them; with one instance it is the number given.", "quantifier": "all numbers of instances and all inputs", "why_tests_cant": "Unbounded number of instances and values.", "anchors": ["flee/coupling.py: CouplingInterface.readInputFromFile"]}
{"id": "C54", "title": "New locations are what was asked for", "statement": "addLocation appends exactly one location with the given name, region, country, coordinates, capacity and population, nobody in it and no roads; its type, move chance and conflict level follow from the description of the type by fixed rules (first matching word, IDP camps, intensity attribute, a move chance below 0.005 makes a camp); nothing else changes except that the spawn weights are recomputed for all locations.", "quantifier": "all ecosystems, settings, descriptions and arguments", "why_tests_cant": "All descriptions and states.", "anchors": ["flee/flee.py: Ecosystem.addLocation, Location.__init__"]}
{"id": "C55", "title": "The network is the one in the tables", "statement": "StoreInputGeographyInEcosystem turns every row of locations.csv into one location (empty cells, home country, delayed conflict zones, scaled populations or capacities, extra columns, major routes), every row of routes.csv into its roads, each road being a pair of open empty links listed at their starting points, and every row of closures.csv into a closure; whatever was in the ecosystem before stays as it was, and nobody is added.", "quantifier": "all tables and all reachable ecosystems", "why_tests_cant": "All tables of any size.", "anchors": ["flee/InputGeography.py: StoreInputGeographyInEcosystem, ReadLocationsFromCSV, ReadLinksFromCSV, ReadClosuresFromCSV"]}
{"id": "C56", "title": "The agents are those in the table", "statement": "ReadAgentsFromCSV adds for every row of agents.csv that is no comment one agent to each location of the given name, with the cells of the row as attributes named by the first row, in the order of the rows; head counts (and populations, if agents are taken from the population) change accordingly and nothing else does; rows with unknown names add nobody.", "quantifier": "all tables and all reachable ecosystems", "why_tests_cant": "All tables of any size.", "anchors": ["flee/InputGeography.py: ReadAgentsFromCSV", "flee/flee.py: Ecosystem.addAgent"]}
{"id": "C57", "title": "Attraction of places", "statement": "The score of a place for an agent, by which routes are weighted, exists exactly if the data it needs are there, and is the product of the place's own score (squared for children, ignored by boys above 14 if those rules are on), the inverse of a power of the distance from where the agent is, the weight of the present flood level times that of the forecast and the agent's flood awareness, and a power of the population (at most one); rules on ethnic groups always fail.", "quantifier": "all settings, states, agents, places and days", "why_tests_cant": "All combinations of rules and data.", "anchors": ["flee/moving.py: getEndPointScore"]}
{"id": "C58", "title": "Chance to leave", "statement": "The chance of an agent to leave a place exists exactly if the data it needs are there, and is the move chance of the place times a power of its relative population, or the move chance of the present flood level, times the factor of the forecast and of the agent's flood awareness if the forecaster is on; in a town it is one if the agent has to go on.", "quantifier": "all settings, states, agents, places and days", "why_tests_cant": "All combinations of rules and data.", "anchors": ["flee/moving.py: calculateMoveChance"]}
{"id": "C59", "title": "Dates count days of the calendar", "statement": "subtract_dates returns exactly the number of days from the second date to the first in the proleptic Gregorian calendar, steps_to_date the date that many days after the start date, and both fail exactly if a text is not a date of the years 1 to 9999 written as year-month-day (or the result leaves these years). A printed date is read back as the same date. The simulation period takes the last start date and the last length given.", "quantifier": "all texts, all dates, all numbers of days, all period files", "why_tests_cant": "All dates of all years, all texts.", "anchors": ["flee/datamanager/DataTable.py: subtract_dates, steps_to_date", "flee/datamanager/read_period.py: read_sim_period"]}
{"id": "C60", "title": "A data table holds what its files say", "statement": "A DataTable has one column per row of the layout file that is no comment and has a file, and the column is the list of the entries of that file (day since the start date, count divided by the scale factor) in their order; headers, comments, rows without count and rows with less than two cells give no entry; reading fails exactly if some other row is no entry. override_input adds a column.", "quantifier": "all directories, layout files, start dates and scale factors", "why_tests_cant": "Files of any length and content.", "anchors": ["flee/datamanager/DataTable.py: DataTable.__init__, ConvertCsvFileToNumPyTable, _processEntry, override_input"]}
{"id": "C61", "title": "Series from several files are added day by day", "statement": "AddCSVTables adds series on the same days row by row. If the second series starts and ends no later than the first, the sum has exactly one row for each day of the second series and each day of the first up to the end of the second.", "quantifier": "all pairs of series with increasing days", "why_tests_cant": "Series of any length, any interleaving of days.", "anchors": ["flee/datamanager/DataTable.py: AddCSVTables, DataTable.__init__"]}
{"id": "C62", "title": "Level 1 corrections scale earlier registrations", "statement": "correctLevel1Registrations on a date multiplies exactly the values of the column before the row on that date by (value on the date + p)/(value before + p), p being the number registered on day 0, and returns this quotient; other columns, later rows and all days stay; dates before the start change nothing. Without registered day 0 numbers the series is then continuous at the date. The corrections of a file are made in order.", "quantifier": "all tables with increasing whole days, all names, dates and correction files", "why_tests_cant": "All tables and all sequences of corrections.", "anchors": ["flee/datamanager/handle_refugee_data.py: RefugeeTable.correctLevel1Registrations, ReadL1Corrections"]}
{"id": "C63", "title": "Largest value and interpolated days", "statement": "getMaxFromData returns the largest whole value among the rows up to the first on or after the given day, at least 0. is_interpolated is False exactly if the column has a row on the day.", "quantifier": "all tables with increasing whole days, all columns and days", "why_tests_cant": "Series of any length.", "anchors": ["flee/datamanager/handle_refugee_data.py: RefugeeTable.getMaxFromData", "flee/datamanager/DataTable.py: DataTable.is_interpolated"]}
{"id": "C64", "title": "Flood levels follow the table of the day", "statement": "UpdateLocationAttributes gives each location the value of the given day from the table of the attribute (0 for places not in the table; for forecasts the whole row, or zeros), and changes nothing else. In flood simulations AddNewConflictZones does so for flood levels and, with the forecaster, for forecasts. This needs that no two locations share their attributes, which holds for locations from StoreInputGeographyInEcosystem.", "quantifier": "all ecosystems, tables, attributes and days", "why_tests_cant": "Any number of locations, tables and days.", "anchors": ["flee/InputGeography.py: UpdateLocationAttributes, AddNewConflictZones"]}
{"id": "C65", "title": "Flood-driven spawning sends the numbers of the settings", "statement": "With flood-driven spawning (constant numbers or parts of the population) each flooded location gets exactly the number of fresh agents that the settings give for its flood level, others get none; the number returned is the sum; nothing but agents, head counts and populations changes.", "quantifier": "all reachable ecosystems, flood levels and random numbers", "why_tests_cant": "All states and flood levels.", "anchors": ["flee/spawning.py: spawn_daily_displaced"]}
{"id": "C66", "title": "The main program prints one true line per day", "statement": "A run of run.py prints one line for each simulated day, and each line describes the state after that day: its date, for every camp the agents that are there or were deactivated there, the number in the data and the relative error between the two, the number of agents, the agents in camps, IDPs, and the total error, registered people and debt if people are registered.", "quantifier": "all input files, settings, random numbers and lengths of a run", "why_tests_cant": "Any number of days, camps, locations and histories.", "anchors": ["runscripts/run.py: main program", "flee/datamanager/read_period.py: read_sim_period"]}
{"id": "C67", "title": "Over a whole run agents follow the registered totals", "statement": "With spawning from data, after every day the number of agents is the number before the first day plus the most that was to be spawned on any day so far; the debt is what this exceeds the current figure by; the registered number printed is that of the day. Before the first day each camp holds the people registered there and its initial IDPs. With conflict- or flood-driven spawning the total error, registered people and debt are always printed as 0.", "quantifier": "all data files, settings, random numbers and lengths of a run", "why_tests_cant": "Needs an invariant over all days of all runs.", "anchors": ["runscripts/run.py: main program", "flee/spawning.py: spawn_daily_displaced, add_initial_refugees"]}
{"id": "C68", "title": "Error measures", "statement": "rel_error is |value-correct|/correct to four digits and 0 without data, and is 0 only within 1/20000 of the data; abs_error is the distance; abs_diffs, mean_abs_diffs and calculate_MASE are the distances of two series, their mean, and the quotient of the mean distance of the forecast over the whole period and that of the naive forecast over the period after the start of the forecast.", "quantifier": "all values and series", "why_tests_cant": "All values and lengths.", "anchors": ["flee/postprocessing/analysis.py: rel_error, abs_error, abs_diffs, mean_abs_diffs, calculate_MASE"]}
{"id": "C69", "title": "A parallel program on one process gives the serial results", "statement": "With the same calls, settings and random numbers a parallel program on one process ends with the same agents in the same places, map, clock, arrival statistics and logs as the serial program, and after a step or updateNumAgents with the same head counts; with limited capacities, stored routes, sinks or intermediate stops in the log it need not.", "quantifier": "all programs (sequences of calls and settings) without these features, all random numbers, all oracles", "why_tests_cant": "Needs a simulation between the two versions over all histories.", "anchors": ["flee/pflee.py: Person, Location, Link, Ecosystem", "flee/flee.py: Person, Location, Link, Ecosystem"]}
{"id": "C70", "title": "The parallel main program prints a header and one true line per day on process 0", "statement": "run_par.py prints on process 0 only: the camps in the order of the locations and one line per day; each line gives the date, and for each camp the people there on all processes together, the number from the data and its relative error, the number of people (without closures), those in camps, the registered total and the debt.", "quantifier": "all inputs, numbers of processes, modes, random numbers and days, with spawning from the registered totals", "why_tests_cant": "The number of processes, the days and the input are unbounded; counts must agree over all processes.", "anchors": ["runscripts/run_par.py", "flee/pflee.py: Ecosystem.evolve, updateNumAgents", "flee/spawning.py: spawn_daily_displaced, add_initial_refugees"]}
{"id": "C71", "title": "In a parallel run the people on all processes follow the registered totals", "statement": "On every line of run_par.py the people on all processes together are those before the first day plus what was to be spawned plus the debt, which is the highest number that was to be spawned on any day so far; no person is created twice or lost because there are several processes.", "quantifier": "all inputs, numbers of processes, modes, random numbers and days, with spawning from the registered totals", "why_tests_cant": "Quantifies over histories of days on any number of processes.", "anchors": ["runscripts/run_par.py", "flee/spawning.py: spawn_daily_displaced", "flee/pflee.py: Ecosystem.addAgent, insertAgent"]}
{"id": "C72", "title": "Runs on different numbers of processes and serial runs print the same data columns", "statement": "Two runs of run_par.py on the same input, on any numbers of processes, in any modes and with any random numbers, and a run of run.py (default move chance at least 0.005), print the same camps, number of lines, dates, numbers from the data, registered totals and debts, and without closures the same numbers of agents.", "quantifier": "all pairs of runs on the same input", "why_tests_cant": "Compares two programs over all inputs, process counts and random numbers.", "anchors": ["runscripts/run_par.py", "runscripts/run.py", "flee/pflee.py: Ecosystem", "flee/flee.py: Ecosystem"]}
{"id": "C73", "title": "Links count exactly who enters them and the link log says so", "statement": "In a step every agent travels over open links; the number of agents that ever entered a link grows by the number of times agents entered it and, with link log level 2, its count for each value of each attribute by the number of times agents with that value entered it; no other call changes these counts. With a link log, a step appends for every open link a line with the total and, at level 2, one per attribute value.", "quantifier": "all reachable states, settings, random numbers and steps; all API calls", "why_tests_cant": "Agents make any number of trips in a step over any network; counts must be exact for every history.", "anchors": ["flee/flee.py: Link.IncrementNumAgents, Person.handle_travel, Person.finish_travel, Ecosystem.evolve", "flee/Diagnostics.py: write_links, write_links_par"]}
{"id": "C74", "title": "Conflict events become one location per region, from an event nearest to the start", "statement": "The conversion of a table of conflict events writes, in the order of their dates, one conflict zone for each region that has an event with fatalities, with the place of an event nearest to the start date, the number of days between the two as conflict date and the population listed first for the region. Dates are read as day, month name, year; years below 50 are of this century. It succeeds exactly when all dates are dates, the level is admin1, the option is a column and every region has a population, and it never overwrites a file.", "quantifier": "all tables of events and populations, start dates, options, levels, files present and orders of rows with the same date", "why_tests_cant": "Rows in any number, dates over the whole calendar, ties in any order.", "anchors": ["flee/preprocessing/acled2locations.py: month_convert, date_format, between_date, drop_rows, filter_table, get_state_population, acled2locations"]}
{"id": "C75", "title": "Files with a column per location are read cell by cell", "statement": "Reading the file of conflict levels, or of an attribute, gives each name of the heading the values of its columns, row after row; it succeeds exactly if every cell has a name above it and is a number, and if no name occurs twice and no row is short the value of day t is in row t. Files of closures and location changes give exactly the rows that are neither empty nor comments.", "quantifier": "all headings, rows and cells", "why_tests_cant": "Tests read one well-formed file; short rows, repeated names, blanks, comments and empty rows are endless.", "anchors": ["flee/InputGeography.py: ReadConflictInputCSV, ReadAttributeInputCSV, ReadClosuresFromCSV, ReadLocationChangesFromCSV, _ReadMajorLinksFromCSV"]}
{"id": "C76", "title": "Location changes happen on their day, conflict dates of locations never", "statement": "AddNewConflictZones for a day makes exactly the changes of location types that location_changes.csv orders for this day, in the order of the file, before anything else. Without a file of conflict levels and with flood rules off it does nothing more: a conflict zone of locations.csv with a later date is stored as a town and its date never starts the conflict, although the input format promises it.", "quantifier": "all tables, days, settings and states", "why_tests_cant": "A test tries one day and one table.", "anchors": ["flee/InputGeography.py: AddNewConflictZones, StoreInputGeographyInEcosystem"]}
{"id": "C77", "title": "Coupled simulations exchange people without loss", "statement": "When two parallel simulations couple at the same time, each reading the table the other one wrote, the number of people in the two together stays the same, except for those in coupled locations that are only incoming; the locations coupled for a list of conflict locations are exactly those meant", "quantifier": "all pairs of parallel runs, all coupled locations, all orders of random numbers and all settings", "why_tests_cant": "the sum over two simulations depends on all agents of all processes of both, on the text that passes between them and on the head counts at that time", "anchors": [["flee/coupling.py", ["Couple", "addGhostLocations", "addMicroConflictLocations", "generateOutputCSVString", "extractNewAgentsFromCSVString"]], ["flee/pflee.py", ["clearLocationsFromAgents"]]]}
{"id": "C78", "title": "An agent keeps its number in the agent log, one main line per day", "statement": "As long as nobody is cleared away, every line ever written to the agent log tells the home and the attributes of the agent that has its number now, and the main lines about an agent are exactly one for each day since it appeared, in order and without a gap, up to today or to its deactivation; no call but evolve writes to the log", "quantifier": "all histories without clearLocationsFromAgents, all settings, all random numbers, all agents and lines", "why_tests_cant": "a number links lines written at different times, between which any calls may add agents; a test reads one file of one run", "anchors": [["flee/Diagnostics.py", ["write_agents", "write_agents_par"]], ["flee/flee.py", ["Ecosystem.evolve", "Ecosystem.addAgent", "Ecosystem.clearLocationsFromAgents"]]]}
{"id": "C79", "title": "The agent log is a table whose columns are those of its heading", "statement": "The file of the agent log is one heading and one line for each entry; a reader of comma separated tables gets back every cell, if no name has a comma or a newline; and what stands under the name of an attribute is that attribute of the agent, if all agents have attributes of the same names, as they have in a run of the main program without agents.csv", "quantifier": "all agents, attributes, names and log levels, all histories without clearLocationsFromAgents, all inputs of the main program", "why_tests_cant": "the heading is written once, from the first agent, long before most lines; whether it fits them depends on every agent that comes later", "anchors": [["flee/Diagnostics.py", ["print_attribute_keys", "print_attribute_values", "write_agents_par"]], ["flee/scoring.py", ["draw_samples", "add_initial_refugees", "spawn_daily_displaced"]], ["runscripts/run.py", []]]}
{"id": "C80", "title": "Logging does not change the simulation", "statement": "The log levels for agents, links and camps change nothing but the logs: the same calls with other log levels give the same people at the same places, the same network and counters, and use the same random numbers; the main program prints the same output; a simulation that runs with logs runs without; and one that runs without logs also runs with them if every day can be logged", "quantifier": "all histories of API calls, all settings and log levels, all random numbers; all inputs of the main program", "why_tests_cant": "a test compares two runs; that no decision ever reads a logged value has to be shown for every call and every state", "anchors": [["flee/flee.py", ["Person.evolve", "Person.finish_travel", "Location.__init__", "Link.IncrementNumAgents", "Ecosystem._aggregate_arrivals", "Ecosystem.evolve"]], ["flee/Diagnostics.py", ["write_agents_par", "write_links_par"]], ["runscripts/run.py", ["run.py"]]]}
{"id": "C81", "title": "Coupled simulations give the same result at any speed and never wait forever", "statement": "Simulations that are coupled through files wait for each other on every day of coupling: whatever the order in which the operating system lets them run, as long as no file is read while it is being written, each of them is at every day in the state it would have if all went side by side, none fails, none gets ahead of those it reads from, and all finish", "quantifier": "any number of coupled programs and instances, any behaviour of the programs, all schedules", "why_tests_cant": "schedules cannot be enumerated, and a deadlock or a race shows only in some of them", "anchors": [["flee/coupling.py", ["CouplingInterface.Couple", "writeOutputToFile", "waitForInputFiles", "readInputFromFile", "setCouplingChannel"]]]}
{"id": "C82", "title": "The demographics files decide the attributes people start with", "statement": "The first call that adds initial refugees reads every file demographics_<word>.csv of the folder input_csv, whatever else is there; later calls read nothing. Each attribute then has the table of its file. A person who starts in a place gets, for each attribute, the value of one row of its table, and a row with weight w in the column of the place (or the column Default if there is none, with empty cells as 0) is taken exactly by the random numbers of an interval of length w / total; negative weights, weights without a positive sum and missing columns are refused with an exception.", "quantifier": "all folders, file names, frames, places and random numbers", "why_tests_cant": "Tests draw a few values for one table; that the weights are the shares concerns every random number, and which file counts concerns every set of file names and every order in which the system lists them.", "anchors": [["flee/spawning.py", ["read_demographic_csv", "read_demographics", "draw_sample", "draw_samples", "add_initial_refugees"]]]}
{"id": "C83", "title": "Coupling through MUSCLE3 managers does what coupling through files does", "statement": "When two sides of a multiscale simulation are coupled through MUSCLE3, each instance sends its table to a manager, which sends the combined numbers to each instance of the other side. For every name that the manager knows an instance then gets the rounded average of the numbers that the instances of the other side gave for it, as it would from files, and nothing for other names. If the manager knows the names of all incoming locations, the exchange has the same effect as through files; with one instance on each side nobody is created and only people in coupled locations that are not outgoing are lost. An incoming name that the manager does not know makes the instance fail.", "quantifier": "all numbers of instances, tables, lists of coupled locations of managers and instances, states and numbers of processes", "why_tests_cant": "The managers are separate programs that meet the simulations only through messages; tests with two instances and the same small list of names cannot show that no list, number of instances or number of people makes the two ways of coupling differ.", "anchors": [["flee/coupling.py", ["Couple", "extractNewAgentsFromCSVString", "generateOutputCSVString"]]]}
{"id": "C84", "title": "The exchange logs say what was exchanged", "statement": "Coupled simulations that log their exchanges save files which, when read for plotting, have exactly the days of the exchanges, one column for each outgoing name, and in it, for each instance in order, the numbers that the instance sent under that name on these days; the file of totals has the number of people on these days, the file of new people what was given to it. This needs at least two exchanges, an outgoing location and names that differ.", "quantifier": "all lists of coupled locations, intervals, numbers of instances, lengths of runs and states of the ecosystems", "why_tests_cant": "Heading and rows are written by different functions and read back by position; that no list of directions, interval or run shifts a column needs a proof over all of them.", "anchors": [["flee/coupling.py", ["logExchangeData", "logNewAgents", "saveExchangeDataToFile", "readCSVLogFiles"]]]}
{"id": "C85", "title": "The validation report measures the distance between simulation and data", "statement": "The report made from the output of the main program lists the camps of the run; its error is the mean over the days of the distances of all camps over the total of the data, and the rescaled error is the same for the shares of the simulated people in camps, up to rounding. The scaled errors of a camp compare the rescaled simulation with the flat, sloped and ratio forecasts from days 7 and 30, and exist exactly if these exist and are wrong on a later day; the totals are means over the camps, weighted by observations, between the smallest and the largest. A simulation with the shares of the data has rescaled and scaled errors 0, one with its numbers error 0, and multiplying the agents changes no rescaled or scaled error.", "quantifier": "every output of the main program for camps with different names made of words, of 31 days or more", "why_tests_cant": "Errors and means are over all days and camps; tests check one table", "anchors": [["flee/postprocessing/extract-validation-results.py", ["plotme", "SimulationErrors.get_error", "SimulationErrors.abs_diff"]], ["flee/postprocessing/analysis.py", ["abs_diffs", "calculate_MASE"]], ["runscripts/run.py", ["output_header_string", "output"]]]}
{"id": "C86", "title": "The micro model builds the network of its tables, and bad weather lengthens its roads", "statement": "Reading routes.csv succeeds exactly if no row is empty and every row that is no comment has five cells. Storing the tables makes one location of each row (name, population, x, y, type, day of conflict, anything, country), a pair of links of each road, whose first link has the type of the row and whose second has none, and a closure of each row of closures.csv; everything else stays. With weather, a crossing is 10000 times longer from a river level of 8000 on, another road twice as long above its lower bound of rain and 10000 times above its upper bound and 15; a road is never shorter than without weather, nor shorter in more rain, and as long in both directions unless it is a crossing.", "quantifier": "every table, ecosystem, weather table and day", "why_tests_cant": "The tables and the weather are arbitrary; the tests of the micro model use no files and no weather", "anchors": [["flee/micro_InputGeography.py", ["InputGeography.ReadLinksFromCSV", "InputGeography.StoreInputGeographyInEcosystem"]], ["flee/pmicro_flee.py", ["Ecosystem.linkUp", "Link", "Link_weather_coupling.get_distance"]]]}
{"id": "C87", "title": "The exported graph is the open network", "statement": "In every state of a simulation export_graph succeeds; its vertices are the names of the locations in order of creation, and its edges are exactly the open links, location by location, each as (from, to, distance). Linking two locations adds exactly the two edges between them; removing or closing a link removes exactly the edges in that direction between the two locations, keeps the others in order, and reports whether there was one.", "quantifier": "every history of calls and every random stream; every pair of locations; every distance", "why_tests_cant": "the edges depend on every link, closure and reopening of the history", "anchors": [["flee/flee.py", ["Ecosystem.export_graph", "Ecosystem.linkUp", "Ecosystem.remove_link"]]]}
{"id": "C88", "title": "The file of the link log is a table", "statement": "At time 0 the link log begins a new file with the heading #time,start_location,end_location,cum_num_agents,attribute; every later step appends to it. If no name, attribute or value has a comma or a newline, every line has five cells under the five headings. After a step, the lines of the file that begin with the day of the step and end with total are exactly the open links, in order, with the number of agents that have entered each. No line about an attribute ends in a cell that reads total, and with colon-free attribute names and values of one sort the last cell tells the attribute and the value. With a link log at level 2 in every step and agents that all have an attribute, the lines about its values add up to the total of every open link.", "quantifier": "every history of calls, every step, every set of places, links and attributes", "why_tests_cant": "The file mixes lines of all days, all links and all attribute values, and is appended to by each step: whether the lines a reader selects are the right ones depends on every earlier call and on every name.", "anchors": [["flee/Diagnostics.py", ["write_links_par", "write_links"]], ["flee/flee.py", ["Ecosystem.evolve"]]]}
{"id": "C89", "title": "The combined output of several instances", "statement": "When the output files of several instances of a coupled model are combined, the combination succeeds at any moment after all files have their headings, and the combined file out.csv is, whatever the other instances wrote, the file of the last instance as far as it has been written. It therefore holds the mean of the instances if they all agree, and not otherwise.", "quantifier": "every number of instances, every content of their output files, every moment at which the files are read", "why_tests_cant": "What the combined file should hold depends on the files of all instances and on how far each has come; a test with one instance, or with instances that agree, cannot see that the mean is computed and thrown away.", "anchors": [["flee/coupling.py", ["CouplingInterface.sumOutputCSVFiles", "CouplingInterface.waitForInputFiles"]]]}
{"id": "C90", "title": "The lists for drawing a map fit together", "statement": "If the names of the locations differ, the list of places and the list of colours have one entry per line of locations.csv, in the order of the file: the name with its two coordinates, and the colour of its type (in any letter case; every conflict type red; unknown types black). The list of places can be made exactly if every line has a name and two coordinates that are numbers.", "quantifier": "every locations.csv", "why_tests_cant": "The two lists are made apart and only their order connects them; whether they fit depends on every line of the file.", "anchors": [["flee/InputGeography.py", ["InputGeography.MakeLocationList", "InputGeography.MakeLocationColorsList"]]]}
{"id": "C91", "title": "The pictures of a run show its numbers", "statement": "Plotting the output of a run draws, for each camp with a name of one word, the simulated numbers and the data of that camp; the curve of the error shows for each day the sum over the camps of the distances between simulation and data over the total of the data (at least 1), and the rescaled curve the same with the shares of the simulation applied to the total of the data. The curve is 0 exactly where the simulation has the numbers of the data; the rescaled curve is 0 where it has the shares and never more than 2 on a day with registered people. Names of several words and the column of IDPs make the program fail.", "quantifier": "every output of a run: any number of days and camps, any numbers, any names", "why_tests_cant": "The curves sum over all camps and the bound depends on totals that another program wrote; the names of the columns are taken apart and put together again, so whether the right columns are drawn depends on every name.", "anchors": [["flee/postprocessing/plot_flee_output.py", ["plot_flee_output", "plot_camps", "plot_numagents", "plot_errors", "error_quantification", "SimulationErrors.abs_diff"]], ["runscripts/run.py", ["output of a day"]]]}
{"id": "C92", "title": "Showing the network shows the open roads", "statement": "In every simulation state whose locations have different names, printing the exported graph shows each location once, followed by the ends of its own open roads, in order and with their lengths if asked for. The graph handed to networkx has the locations as nodes and each pair of linked places as one edge, whose weight is the length, cut off to a whole number, of the last road between them.", "quantifier": "every history of API calls; every list of vertices and edges", "why_tests_cant": "Edges are matched to vertices by name and added again for every vertex; that no road is lost, shown twice or shown under another place depends on the whole network and its history.", "anchors": [["flee/postprocessing/analyze_graph.py", ["print_graph", "print_graph_nx"]], ["flee/flee.py", ["Ecosystem.export_graph"]]]}
{"id": "C93", "title": "A whole coupled run neither invents people nor loses them between the simulations", "statement": "Two simulations, each on any number of processes, run at their own speed and exchange people through files every k days: what is outgoing in one is incoming in the other. Provided that no file is read while it is being written and no call fails, the number of people in both at the end is the number at the start plus those whom the days of work added, minus those who stood in places that are only incoming when an exchange cleared these. If such places are empty at every exchange, nobody is lost.", "quantifier": "every number of days and processes, every interval, every daily work, every order in which the two programs get on", "why_tests_cant": "People are counted at most once only if, on every day of the run, what one program writes is what the other one reads and both clear what they have sent; tests run one schedule of one pair.", "anchors": [["flee/coupling.py", ["CouplingInterface.Couple", "CouplingInterface.writeOutputToFile", "CouplingInterface.waitForInputFiles", "CouplingInterface.readInputFromFile"]], ["flee/pflee.py", ["Ecosystem.clearLocationsFromAgents", "Ecosystem.insertAgents"]]]}
