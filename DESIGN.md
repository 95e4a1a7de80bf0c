# Formal model of MeshiPhi in Rocq — design

Source: `/repo` (antarctica/MeshiPhi at the pinned commit), read as text and not run.
Model and proofs: `/verif/rocq/theories` (Coq 8.16.1, logical root `Verif`).
Properties: `properties.jsonl`; status and theorem names: `MANIFEST.json`
(written by `mkmanifest.py` from `manifest_table.py`); wrong programs tried
against the theorems: `seeded/LOG.jsonl` (run by `seeded/run.py`).
The tables in sections 3, 5 and 6 are written by `mkdesign.py`.

## 1. How the code is modelled

* **Shallow, branch by branch.** Every Python function that carries a property is
  a total Gallina function; its comment cites the file and lines.
* **Exceptions are values**: `res A = Ok a | Err exn`. "Never raises" and "raises
  exactly when" are part of the properties, so `KeyError`, `IndexError`,
  `ValueError` of `list.remove`, `AttributeError` on `None` and so on are kept
  apart. Python's negative list indices are modelled (`py_nth`).
* **Loops over lists that grow** while being iterated have explicit fuel whose
  exhaustion is a separate error; termination (enough fuel exists, more changes
  nothing) is a theorem (C12, C59).
* **Numbers** are exact rationals `Q`, equality `==`. Python computes with IEEE
  doubles, so this is an idealisation. `Floats.v`, `FloatGeo.v`, `FloatMesh.v` and
  `RasterFloat.v` model the double arithmetic itself (standard library
  `SpecFloat`), and C49 says when the idealisation of the mesh builder is exact and
  exhibits cases in which it is not.
* **NaN** is `None` in an `option Q`. Square roots are a function argument.
* **Dictionaries** are association lists in insertion order with update in place.
  Graph keys are `KI z` (the int) or `KS z` (the string `str(z)`): the graph has
  int keys while a mesh is built and string keys once loaded, and the code
  depends on the difference.
* **Objects** are values; sharing is stated where the code shares. Where mutation
  of a shared object is observable it is modelled by returning all the objects
  concerned (C33: `merge_mesh` returns both meshes).
* **Data loaders** are records of their methods (`Cell.loader`), so theorems
  about the mesh hold for arbitrary loaders; `Loaders.v` gives the scalar and
  vector loaders of the package, `Lut.v` the look-up tables.
* **The environment** (files, clock, strftime's padding, glob, which texts
  `float()` accepts, what a loader class returns, shapely's geometry) is always a
  universally quantified argument, never an axiom.

Specifications are in files of their own (`*Spec.v`) and are stated over points,
boxes, dates and texts; they read record fields of the model but use none of its
functions, with the exceptions their comments state. Model files contain no
proofs. `Props*.v` contain the property theorems with `Print Assumptions` and an
`Example` in which the hypotheses hold.

## 2. Naming

`Cnn_…` proves (a part of) property Cnn. `…_partial`: the statement needs a
hypothesis the property does not have, or covers only part of it.
`…_refuted`: a concrete counterexample, or a theorem that contradicts the
property. Where a property is false, the strongest true variant found is proved
next to the refutation and the manifest says `partial`.

## 3. Files

<!-- files -->
| file | content |
|------|---------|
| `Base.v` | Python building blocks used by the model: exceptions as values, lists, insertion-ordered dictionaries, exact rationals |
| `Geo.v` | Model of meshiphi/utils.py (longitudes) and meshiphi/mesh_generation/boundary.py |
| `Graph.v` | Model of meshiphi/mesh_generation/neighbour_graph.py and direction.py |
| `Cell.v` | Model of meshiphi/mesh_generation/cellbox.py and metadata.py |
| `Loaders.v` | Model of the data loaders' trimming, aggregation and homogeneity functions: meshiphi/dataloaders/scalar/abstract_scalar.py and meshiphi/dataloaders/vector/abstract_vector.py |
| `Builder.v` | Model of meshiphi/mesh_generation/mesh_builder.py (and the fields of mesh.py it uses) |
| `Spec.v` | Independent specifications: rectangles in the plane, the eight ways two of them can touch, and tilings |
| `QLib.v` | Rational arithmetic lemmas and tactics |
| `CaseProofs.v` | Characterisation of the neighbour case against the geometric specification |
| `SplitGeo.v` | Geometry of splitting: how contact with a cell relates to contact with its four quarters, in the plane and on the cylinder |
| `Dict.v` | Lemmas on dictionaries and on the monadic loops |
| `Rep.v` | Abstract view of the neighbour graph: the graph dictionary represents a function from (node, direction) to lists |
| `SplitCore.v` | The combinatorial core of splitting: given how contact with a cell relates to contact with its quarters, rewriting the neighbour lists in the way both split_and_replace functions do keeps them exact |
| `Stage.v` | Stages of a split: the graph after the neighbours on some of the eight sides and corners have been rewritten |
| `BuilderSplit.v` | MeshBuilder.split_and_replace: the graph part computes [final] |
| `MeshSpec.v` | Specification of meshes: what it means for a mesh's neighbour graph to be exact, for its cells to tile a region, and what a history of splits is |
| `Invariant.v` | The mesh invariant and its preservation by MeshBuilder.split_and_replace |
| `Grid.v` | The initial grid: its cells and its neighbour graph |
| `Build.v` | MeshBuilder's initial mesh satisfies the mesh invariant and tiles its region |
| `Consequences.v` | Consequences of the mesh invariant: exact graph, symmetry, tiling, area, histories of splits |
| `Reach.v` | Every reachable mesh satisfies the invariant |
| `MeshFacts.v` | The statements of PropsMesh.v, assembled from the lemmas |
| `DataSpec.v` | Specification of data selection: which points belong to a region |
| `TrimProofs.v` | Trimming selects the points of the half-open cell; the live cells' subsets partition the data |
| `XrProofs.v` | Trimming an xarray Dataset keeps exactly the rows of the bounds; trimming across the antimeridian |
| `AggProofs.v` | Homogeneity answers and aggregated values |
| `FillProofs.v` | Aggregation of cells: filling from ancestors, merging of sources |
| `Adaptive.v` | should_split and split_to_depth |
| `ChainProofs.v` | What every live cell and all its ancestors hold of the data; aggregation of reachable meshes |
| `VectorChain.v` | Vector sources in the cells of reachable meshes; names used once |
| `AdaptiveFacts.v` | The statements of PropsAdaptive.v, assembled from the lemmas |
| `Env.v` | Model of meshiphi/mesh_generation/environment_mesh.py and aggregated_cellbox.py: JSON, queries, splitting and merging of a mesh whose cells have been aggregated |
| `EnvSpec.v` | Specification of environment meshes: what it means for the neighbour graph of a loaded mesh to be exact, histories of refinements, and what merging is meant to do |
| `EnvSplit.v` | EnvironmentMesh.split_and_replace: the graph part computes [final] (as the builder's does, with string keys and the other order of steps) |
| `EnvInv.v` | EnvironmentMesh.split_and_replace keeps a loaded regional mesh in order |
| `EnvMerge.v` | EnvironmentMesh.merge_mesh: removal, renumbering, union and tying of graphs |
| `EnvJson.v` | Writing a mesh as JSON and loading it again |
| `EnvLink.v` | From the builder's mesh through JSON to the loaded mesh |
| `EnvQuery.v` | Point queries and refinement around points |
| `EnvHistory.v` | Sequences of refinements, updates and merges |
| `PyStr.v` | Python's string methods, on strings of 8-bit characters |
| `Wkt.v` | Model of the text form of boundaries (boundary.py 51-102, 395-405) |
| `GlobeSpec.v` | Specification of longitudes and of regions on the globe, used by C35-C38 |
| `GlobeProofs.v` | Longitudes and boundaries on the globe: proofs for C35, C36 and C38 |
| `CrossSpec.v` | Specification of meshes on the globe, for regions that cross the antimeridian (C39, C47) |
| `Cross.v` | Meshes over a region crossing the antimeridian: the cells are compared with copies of them moved into one frame in which the region is an interval |
| `CrossInv.v` | The invariant of meshes over a region crossing the antimeridian, and what one split does to it |
| `CrossBuild.v` | The initial mesh over a region whose longitudes wrap around, its tiling of the globe, and histories of splits |
| `CrossSound.v` | Splits of any cells of a mesh over a region crossing the antimeridian: they do not raise, and the graph never lists a cell that does not touch |
| `StrLib.v` | Lemmas about PyStr |
| `WktProofs.v` | The text form of boundaries: proofs for C37 |
| `Dates.v` | Model of dates: boundary.py 104-123, 125-179, 182-202 (times), config_validator.py 55-84 and the parts of Python's datetime they use |
| `DateSpec.v` | Specification of dates, used by C40: the calendar as "the next day", and how a date is written |
| `CalProofs.v` | The calendar: Python's algorithm against the specification |
| `DateProofs.v` | Date texts: proofs for C40 |
| `Config.v` | Model of meshiphi/config_validation (mesh_schema.py, vessel_schema.py, route_schema.py, config_validator.py), of Boundary.from_json and of the way MeshBuilder.__init__ uses a configuration |
| `ConfigSpec.v` | Specification of mesh configurations, used by C39 and C51 |
| `ConfigProofs.v` | Proofs about configurations: what the validator accepts (C51) and that the grids of accepted configurations tile the region (C39) |
| `Params.v` | Model of meshiphi/dataloaders/factory.py, of the [add_default_params] methods of the dataloaders and of MeshBuilder.check_value_fill_type |
| `ParamSpec.v` | Specification of the dataloader factory and of default parameters |
| `ParamProofs.v` | The dataloader factory and default parameters |
| `AddLoader.v` | Model of adding a source to an existing mesh: mesh_builder.py 274-315 [add_dataloader] and the default data subset of metadata.py 20-40 |
| `AddProofs.v` | Adding a source to an existing mesh |
| `Compare.v` | Model of utils.py 109-156 [round_to_sigfig] and of meshiphi/mesh_validation/mesh_comparator.py |
| `CompareSpec.v` | Specification of rounding to significant figures and of comparing two mesh files |
| `SigProofs.v` | Proofs about rounding to significant figures |
| `CompareProofs.v` | Proofs about comparing two mesh files |
| `Validate.v` | Model of meshiphi/mesh_validation/full_mesh_validator.py, mesh_validator.py and sampler.py |
| `ValidateSpec.v` | Specification of the mesh validators |
| `ValidateProofs.v` | Proofs about the mesh validators |
| `Raster.v` | Model of EnvironmentMesh.to_tif (environment_mesh.py 1199-1421) up to the array handed to GDAL and its geo-transform |
| `RasterSpec.v` | Specification of raster images |
| `RasterProofs.v` | Proofs about raster export |
| `Floats.v` | IEEE 754 binary64 arithmetic (the standard library's SpecFloat), for the parts of the code whose behaviour depends on rounding |
| `RasterFloat.v` | The number of samples [generate_samples] (environment_mesh.py 1225-1247) produces in double precision |
| `FloatGeo.v` | The geometry of Geo.v, Graph.v, Cell.v and Builder.v as the code computes it, in double precision |
| `FloatArith.v` | Exactness of double arithmetic: an operation whose exact result is a double returns it |
| `FloatSpec.v` | What the numbers of a computation in double precision stand for |
| `FloatProofs.v` | On a dyadic grid the computation in double precision is exact |
| `FloatMesh.v` | The mesh builder of Builder.v and the graph operations of Graph.v that look at coordinates, as the code computes them in double precision |
| `FloatMeshSpec.v` | Meshes in double precision and the exact meshes they stand for |
| `FloatMeshProofs.v` | On a dyadic grid the whole mesh in double precision is the exact one |
| `Lut.v` | Model of the lookup-table dataloaders: dataloaders/lut/thickness.py, density.py and abstract_lut.py |
| `LutSpec.v` | Specification of the lookup tables |
| `LutProofs.v` | Proofs about the lookup tables |
| `Examples.v` | Concrete meshes used to show that the hypotheses of the theorems are met |
| `ExamplesData.v` | Concrete meshes with data, used to show that hypotheses are met |
| `ExamplesEnv.v` | Concrete loaded meshes used to show that the hypotheses of the theorems on environment meshes are met |
| `PropsMesh.v` | Property theorems C01-C11 and C50: geometry of neighbours, the initial grid, splitting |
| `PropsAdaptive.v` | Property theorems C12-C15 and C24: adaptive splitting and the built mesh |
| `PropsData.v` | Property theorems C16-C23: data selection, homogeneity, aggregation, filling |
| `PropsEnv.v` | Property theorems C25-C34: environment meshes |
| `PropsBoundary.v` | Property theorems C35-C38: longitudes and boundaries |
| `PropsDates.v` | Property theorems C40: dates |
| `PropsCross.v` | Property theorems C47: a regional mesh over a range that crosses the antimeridian |
| `PropsConfig.v` | Property theorems C39, C51, C52: configurations |
| `PropsAdd.v` | Property theorem C48: adding a source to an existing mesh |
| `PropsParams.v` | Property theorems C41, C42 and C53: the dataloader factory, default parameters, and the fill type |
| `PropsCompare.v` | Property theorems C43 and C54: comparing mesh files, rounding to significant figures |
| `PropsValidate.v` | Property theorems C44 and C55: the mesh validators |
| `PropsRaster.v` | Property theorems C45: raster export |
| `PropsLut.v` | Property theorems C46 and C56-C58: lookup tables |
| `PropsFloat.v` | Property theorems C49: adjacency in double precision |
| `Pipeline.v` | Model of the whole way from a configuration to an environment mesh: MeshBuilder.__init__ with its data sources and build_environmental_mesh (meshiphi/mesh_generation/mesh_builder.py) |
| `PipeSpec.v` | Specification of what a generated mesh holds (C59) |
| `PipeProofs.v` | Proofs for C59 |
| `PropsPipe.v` | Property theorem C59: from a configuration file to a mesh file and back |
| `Shapes.v` | Model of the synthetic data sources: meshiphi/dataloaders/scalar/shape.py and meshiphi/dataloaders/vector/vector_shape.py |
| `ShapeSpec.v` | What the synthetic sources should hold (C60) |
| `ShapeProofs.v` | Proofs about the synthetic sources (C60) |
| `PropsShape.v` | Property theorem C60: synthetic sources |
| `Construct.v` | Model of the construction of a data source: the last part of [__init__] and [calculate_coverage] of meshiphi/dataloaders/scalar/abstract_scalar.py and meshiphi/dataloaders/vector/abstract_vector.py |
| `ConstructSpec.v` | When a source's data meet the region (C62) |
| `ConstructProofs.v` | Proofs about the construction of sources (C62) |
| `PropsConstruct.v` | Property theorem C62: the data a source holds after construction |
| `Times.v` | Model of utils.py 44-106 [frac_of_month], [str_to_datetime], [date_range], [convert_decimal_days] |
| `TimesSpec.v` | Specification of durations, months and ranges of dates (C65, C66) |
| `TimesProofs.v` | Proofs about durations, months and ranges of dates (C65, C66) |
| `PropsTimes.v` | Property theorems C65 and C66: durations, months and ranges of dates |
| `Downsample.v` | Model of [downsample]: abstract_scalar.py 723-812, the same text in abstract_vector.py 723-812 |
| `DownSpec.v` | Specification of downsampling (C61) |
| `DownProofs.v` | Proofs about downsampling (C61) |
| `PropsDown.v` | Property theorem C61: downsampling |
| `Names.v` | Model of the names of data columns: abstract_scalar.py 68-75, 814-936, abstract_vector.py 65-74, 814-926 and abstract_lut.py 361-404 |
| `NamesSpec.v` | Specification of renaming data columns (C63) |
| `NamesProofs.v` | Proofs about the names of data columns (C63) |
| `PropsNames.v` | Property theorem C63: names of data columns |
| `Curl.v` | Model of the derivatives of vector fields: abstract_vector.py 527-600 (condition 'curl'), 928-1085 and utils.py 159-173 |
| `CurlSpec.v` | Specification of the curl of a field of vectors on a grid (C64) |
| `CurlProofs.v` | Proofs about the curl of vector fields (C64) |
| `PropsCurl.v` | Property theorem C64: curl and difference from the mean vector |
| `Files.v` | Model of the choice of data files by date: the era5_*.py loaders and duacs_current.py (the lines [self.files = ...]), scalar/amsr.py 55-95, scalar/ecmwf_sig_wave_height.py 22-83 and scalar/icenet.py 27-104 |
| `FilesSpec.v` | Specification of the choice of data files by date (C67) and of forecasts (C68) |
| `FilesProofs.v` | Proofs about the choice of data files (C67, C68) |
| `PropsFiles.v` | Property theorems C67 (files chosen by date) and C68 (days of IceNet forecasts) |
| `Import.v` | Model of the import of data files, after they are opened: [import_data] of scalar/era5_*.py, bsose_depth.py, bsose_sea_ice.py, baltic_sea_ice.py, gebco.py, modis.py, scalar_csv.py and vector/era5_wind.py, era5_wave_direction_vector.py, baltic_current.py, duacs_current.py, north_sea_current.py, sose.py, vector_csv.py |
| `ImportSpec.v` | Specification of imported data (C69) |
| `ImportProofs.v` | Proofs about imported data (C69) |
| `PropsImport.v` | Property theorem C69: imported data |
| `VecAgg.v` | Model of the aggregation of vectors: what abstract_vector.py adds to Loaders.v ([vector_values_df]) and AddLoader.v ([vector_values_xr]) |
| `VecAggSpec.v` | Specification of the aggregation of vectors (C70) |
| `VecAggProofs.v` | Proofs about the aggregation of vectors (C70) |
| `PropsVecAgg.v` | Property theorem C70: aggregated vectors |
| `Grf.v` | Model of the random fields: utils.py 177-236, scalar/scalar_grf.py 64-138 and vector/vector_grf.py 50-106 |
| `GrfSpec.v` | Specification of random fields (C71) |
| `GrfProofs.v` | Proofs about random fields (C71) |
| `PropsGrf.v` | Property theorem C71: random fields |
| `Reproject.v` | Model of reprojection: [reproject] of abstract_scalar.py 602-721 and abstract_vector.py 602-721 (the accurate method; the fast one is a call of rioxarray), its place in [__init__] (abstract_scalar.py 53-95), and the sources it serves: scalar/amsr.py 66-102, scalar/visual_iced.py 9-83; csv files (scalar_csv.py 20-28) |
| `ReprojectSpec.v` | Specification of reprojected data (C72) |
| `ReprojectProofs.v` | Proofs about reprojection |
| `PropsReproject.v` | Property theorem C72: reprojected data |
| `LutFiles.v` | Model of the look-up tables read from files: lut/lut_csv.py 13-53, lut/lut_geojson.py 37-71, lut/lut_shapefile.py 37-71, lut/scotland_ncmpa.py 12-43, and what abstract_lut.py 42-86, 131-169, 231-262 makes of their tables |
| `LutFilesSpec.v` | Specification of look-up tables read from files (C73) |
| `LutFilesProofs.v` | Proofs about look-up tables read from files |
| `PropsLutFiles.v` | Property theorems C73: look-up tables read from files |
| `Forecast.v` | Model of the import of forecasts: scalar/icenet.py 47-104, scalar/ ecmwf_sig_wave_height.py 44-97 and vector/oras5_current.py 24-39, with the end of [__init__] (Construct.v) |
| `ForecastSpec.v` | Specification of imported forecasts (C74) |
| `ForecastProofs.v` | Proofs about imported forecasts |
| `PropsForecast.v` | Property theorem C74: forecasts |
| `Rebuild.v` | Model of what a mesh file says about how the mesh was built, and of building it again from there: the entries of the configuration that MeshBuilder.__init__ and initialize_meta_data (meshiphi/mesh_generation/mesh_builder.py 80-88, 141-184) write back into the configuration, EnvironmentMesh.to_json (environment_mesh.py 1106) and rebuild_mesh_cli (meshiphi/cli.py 75-95) |
| `RebuildSpec.v` | Specification vocabulary for C75 |
| `RebuildProofs.v` | Proofs for C75 |
| `PropsRebuild.v` | Property theorem C75: a mesh file says how to build its mesh again |
| `MergeDir.v` | Model of [merge_mesh_cli] (cli.py 157-199): merging one mesh file, or all files of a directory, into a mesh file |
| `MergeDirSpec.v` | Specification of merging several meshes: meshes stacked on top of each other |
| `MergeDirProofs.v` | Merging several meshes: at every point the last mesh wins |
| `PropsMergeDir.v` | Property theorem C76: merging a directory of mesh files |
| `Export.v` | Model of the export of a mesh: EnvironmentMesh.to_geojson (environment_mesh.py 1144-1197), to_png (1120-1142) up to the plotter, save (1470-1502) and export_mesh_cli (cli.py 118-155) |
| `ExportSpec.v` | Specification of the GeoJSON export |
| `ExportProofs.v` | Proofs for the GeoJSON export |
| `PropsExport.v` | Property theorem C77: exporting a mesh |
| `Colour.v` | Model of the colour table of EnvironmentMesh.to_tif: [set_colour] (environment_mesh.py 1342-1366) up to the text handed to gdaldem |
| `PropsColour.v` | Property theorem C78: the default colours of an exported image |
| `Sources.v` | Model of whole data sources, from the files to the object the mesh uses: [__init__] of abstract_scalar.py 53-95 with [import_data] of scalar_csv.py, gebco.py, baltic_sea_ice.py, bsose_depth.py, bsose_sea_ice.py, era5_sig_wave_height.py, era5_max_wave_height.py, era5_mean_wave_direction.py, era5_wave_period.py and era5_wind_mag.py; the steps are those of Files.v, Import.v, Downsample.v, Reproject.v, Names.v and Construct.v |
| `SourcesSpec.v` | Specification of whole data sources: what a configured source and its files say (C79) |
| `SourcesProofs.v` | Proofs about whole data sources (C79) |
| `PropsSources.v` | Property theorem C79: from data files to the values of cells |
| `EnvGlobeSpec.v` | Specification of splits of a loaded mesh around the globe (C27) |
| `EnvGlobe.v` | Splits of a loaded mesh around the globe: the code tests contacts without moving cells by 360 degrees |
| `EnvGlobeProofs.v` | Which splits of a loaded mesh around the globe keep its graph exact |
| `EnvGlobeSound.v` | Any splits of a loaded mesh around the globe: they do not raise, the graph never lists a cell that does not touch, and keeps every contact that needs no move by 360 degrees |
| `PropsEnvGlobe.v` | Property theorems C27, continued: which splits of a loaded mesh around the globe keep its graph exact |
| `Automate.v` | Model of meshiphi/test_automation/test_automater.py, of the tables of tests in meshiphi/__init__.py 17-41 and of [meshiphi_test_cli] (cli.py 203-278): which tests are run and what is reported |
| `AutomateSpec.v` | Specification of the test automation (C80): changed files, registered tests, and the summary pytest prints |
| `AutomateProofs.v` | Proofs about the test automation |
| `PropsAutomate.v` | Property theorems C80: the test automation |
| `GreatCircle.v` | Model of Boundary.calc_size (boundary.py 320-338), over the real numbers |
| `GreatCircleSpec.v` | Specification of distances on the globe (C81): the angle between two directions |
| `PropsGreatCircle.v` | Property theorems C81: the size of a boundary |
| `Waypoints.v` | Model of [validate_waypoints] (config_validator.py 161-198) and of the names it requires (waypoints_schema.py 1) |
| `WaypointsSpec.v` | Specification of a table of waypoints (C82) |
| `PropsWaypoints.v` | Property theorem C82: which waypoints are accepted |
| `Plot.v` | Model of the plotter: MeshPlotter (mesh_plotter.py 10-75) and EnvironmentMesh.to_png (environment_mesh.py 1120-1142), as the list of what is painted, in order |
| `PlotSpec.v` | Specification of the plots (C83) |
| `PlotProofs.v` | Lemmas about the plotter |
| `PropsPlot.v` | Property theorem C83: plotting a mesh |
| `AutoSave.v` | Model of test_automater.py 345-445: keeping the meshes of the tests that show a difference |
| `AutoSaveSpec.v` | Specification of what is kept of the tests' meshes |
| `AutoSaveProofs.v` | Proofs for saving the tests' meshes |
| `PropsAutoSave.v` | Property theorem C85: the meshes kept of a test run |
| `PropsCellFile.v` | Property theorem C86: how a cell is written in the mesh file |
| `VecLoader.v` | Model of the loaders of vectors held as xarray Datasets (abstract_vector.py), as the mesh sees them |
| `MixSpec.v` | Specification of what a mesh generated from scalar and vector sources holds (C87) |
| `MixProofs.v` | Proofs for C87 |
| `PropsMix.v` | Property theorem C87: generating a mesh from scalar and vector sources |
| `VecHomSpec.v` | Specification of the decision of vector sources on splitting |
| `VecHomProofs.v` | Proofs about the decision of vector sources (C18) |
| `PropsVecHom.v` | Property theorem C18 for vectors |
| `VecSources.v` | Model of whole vector sources, from the files to the object the mesh uses: [__init__] of abstract_vector.py 47-100 with [import_data] of vector_csv.py, sose.py, baltic_current.py, duacs_current.py, north_sea_current.py, era5_wind.py and era5_wave_direction_vector.py; the steps are those of Sources.v, Import.v and Names.v |
| `VecSourcesSpec.v` | Specification of whole vector sources: what a configured source and its files say (C88) |
| `VecSourcesProofs.v` | Proofs about whole vector sources (C88) |
| `PropsVecSources.v` | Property theorem C88: from files of scalars and vectors to the values of cells |
| `StepInv.v` | Adaptive splitting for any invariant of meshes under which splitting a live cell does not raise (the proofs of Adaptive.v and AdaptiveFacts.v with the invariant as a parameter) |
| `CrossPipeSpec.v` | Specification of what a mesh generated over a region that crosses the antimeridian holds (C89): PipeSpec.v with places taken on the globe |
| `CrossData.v` | The data of the cells of a mesh over a region that crosses the antimeridian |
| `CrossAgg.v` | Values of the cells of a mesh over a region that crosses the antimeridian |
| `CrossFile.v` | Writing a mesh over a region that crosses the antimeridian, and reading it back |
| `CrossPipe.v` | From a configuration of a region that crosses the antimeridian to a mesh file and back (C89) |
| `PropsCrossPipe.v` | Property theorem C89: from the configuration of a region that crosses the antimeridian to a mesh file and back |
| `LutSources.v` | Model of look-up tables as sources of a mesh: abstract_lut.py 42-86 with [import_data] of thickness.py, density.py, lut_csv.py, lut_geojson.py, lut_shapefile.py and scotland_ncmpa.py; [trim_datapoints], [get_value] and [get_hom_condition] (abstract_lut.py 206-348) as a mesh calls them |
| `TableSpec.v` | Specification of what a mesh generated from scalar sources, vector sources and look-up tables holds (C90) |
| `TableChain.v` | Cells of reachable meshes hold, of every source, the whole data trimmed to their bounds: for every kind of loader whose trimming can be done in steps |
| `TableProofs.v` | Proofs for C90 |
| `TableFiles.v` | Proofs about look-up tables as sources, from their files or dates (C90) |
| `PropsTable.v` | Property theorems C90: generating a mesh from scalar sources, vector sources and look-up tables |
| `AllSources.v` | Model of the construction of any source: the call at the end of factory.py 48-136 [get_dataloader], for the point sources of Sources.v and VecSources.v, the shapes of ShapeSources.v and the look-up tables of LutSources.v |
| `WholeSpec.v` | Specification of sources of all kinds: what a configured look-up table and its files say (C91) |
| `WholeProofs.v` | Proofs about sources of all kinds, from their files to the mesh (C91) |
| `PropsWhole.v` | Property theorem C91: from files of all kinds to the values of cells |
| `MeshLookup.v` | Model of the look-ups of mesh.py 59-144: [add_data_points], [get_cellboxes] and [get_cellbox] of a Mesh |
| `PropsLookup.v` | Property theorems C92: looking up cells in a Mesh |
| `ShapeSources.v` | Model of the synthetic shapes as sources, from the configuration to the object the mesh uses: [__init__] of abstract_scalar.py 53-95 and abstract_vector.py 47-100 with [import_data] of shape.py 63-94 and vector_shape.py 60-91; the generators are those of Shapes.v, the other steps those of Sources.v and VecSources.v |
| `ShapeSourcesSpec.v` | Specification of the synthetic shapes as sources: what a configured shape says (C93) |
| `ShapeSourcesProofs.v` | Proofs about the synthetic shapes as sources (C93) |
| `PropsShapeSources.v` | Property theorem C93: from configured shapes to the values of cells |
| `Cli.v` | Model of the command line tools: [create_mesh_cli], [rebuild_mesh_cli], [export_mesh_cli] and [merge_mesh_cli] (cli.py 75-199) on the files of a disk, with the arguments of [get_args] (13-73) |
| `PropsCli.v` | Property theorem C94: sessions of the command line tools |
| `GrfSources.v` | Model of the random fields as sources, from the configuration to the object the mesh uses: [__init__] of abstract_scalar.py 53-95 and abstract_vector.py 47-100 with [import_data] of scalar_grf.py 64-138 and vector_grf.py 50-106; the fields are those of Grf.v, the other steps those of Sources.v and VecSources.v |
| `GrfSourcesSpec.v` | Specification of the random fields as sources: what a configured field says (C95) |
| `GrfSourcesProofs.v` | Proofs about the random fields as sources (C95) |
| `PropsGrfSources.v` | Property theorem C95: from configured random fields to the values of cells |
| `IceSources.v` | Model of the sea ice of AMSR, IceNet and Visual_Ice as sources, from the configuration to the object the mesh uses: [__init__] of abstract_scalar.py 53-95 with [import_data] of scalar/amsr.py 43-102, scalar/icenet.py 13-104 and scalar/visual_iced.py 9-83; the steps are those of Files.v, Forecast.v, Reproject.v, Names.v and Construct.v |
| `IceSourcesSpec.v` | Specification of the sea ice of AMSR, IceNet and Visual_Ice as sources: what a configured source and its files say (C96) |
| `IceSourcesProofs.v` | Proofs about the sea ice of AMSR, IceNet and Visual_Ice as sources (C96) |
| `PropsIceSources.v` | Property theorem C96: from configured sea ice to the values of cells |
| `WindSources.v` | Model of the wind directions of ERA5 and of MODIS as sources, from the configuration to the object the mesh uses: [__init__] of abstract_scalar.py 53-95 with [import_data] of scalar/era5_wind_dir.py 9-50 and scalar/modis.py 7-32; the steps are those of Files.v, Import.v and Sources.v |
| `WindSourcesSpec.v` | Specification of configured wind directions (C97) |
| `WindSourcesProofs.v` | Proofs for C97 |
| `PropsWindSources.v` | Property theorem C97: from configured wind directions to the values of cells |
| `SampleSpec.v` | Specification of downsampled sources of a configuration (C98) |
| `SampleProofs.v` | Proofs for C98 |
| `PropsSample.v` | Property theorem C98: downsampled grids in the whole way to the mesh |
| `WaveSources.v` | Model of the wave heights of ECMWF and the currents of ORAS5 as sources, from the configuration to the object the mesh uses: [__init__] of abstract_scalar.py 53-95 and abstract_vector.py 47-100 with [import_data] of scalar/ecmwf_sig_wave_height.py 9-97 and vector/oras5_current.py 10-39; the steps are those of Files.v, Forecast.v and VecSources.v |
| `WaveSourcesSpec.v` | Specification of configured wave heights and currents (C99) |
| `WaveSourcesProofs.v` | Proofs for C99 |
| `PropsWaveSources.v` | Property theorem C99: from configured wave heights of ECMWF and currents of ORAS5 to the values of cells |
| `VecSampleSpec.v` | Specification of downsampled vector sources of a configuration (C100) |
| `VecSampleProofs.v` | Proofs for C100 |
| `PropsVecSample.v` | Property theorem C100: downsampled vectors in the whole way to the mesh |
| `WaveSampleSpec.v` | Specification of downsampled wave heights of ECMWF (C101) |
| `WaveSampleProofs.v` | Proofs for C101 |
| `PropsWaveSample.v` | Property theorem C101: downsampled wave heights in the whole way to the mesh |
| `MoreSampleSpec.v` | Specification of downsampled wind directions and currents of ORAS5 (C102) |
| `MoreSampleProofs.v` | Proofs for C102 |
| `PropsMoreSample.v` | Property theorem C102: downsampled wind directions and currents of ORAS5 in the whole way to the mesh |
| `AggSpec.v` | Specification of the aggregates of a cell (C103) and of the blocks of a grid, column by column (C61) |
| `AggExact.v` | Proofs about the aggregates of a cell and of blocks (C103, C61) |
| `PropsAggExact.v` | Property theorems C103 and C61: exactly which aggregates cells and blocks hold |
<!-- end -->

## 4. Main proof ideas

* *Neighbours and splitting (C01–C11, C26, C27, C47, C50).* The if-cascade is
  characterised against geometric contact by linear arithmetic. `SplitGeo.v` says
  how contact with a cell relates to contact with its quarters; `SplitCore.v` and
  `Stage.v` show once, for an abstract contact relation, that the rewriting of the
  graph keeps it exact. The plane, the cylinder, string-keyed graphs and regions
  across the antimeridian are instances. Invariants are carried over all histories
  of splits by induction.
* *Adaptive splitting (C12–C15).* A weight on the remaining list decreases; after
  each pass no live cell above the depth wants to be split.
* *Data (C16–C24).* Trimming selects exactly the points of the half-open cell.
  By induction over splits every live cell and each of its ancestors holds exactly
  the points of its bounds, from which the aggregated values follow.
* *Merging (C30–C33).* Removal, renumbering, union and tying of the graphs are
  treated as operations on the abstract view of the graph; refinements, updates and
  merges are closed under an invariant (`EnvHistory.v`).
* *Dates (C40).* Python's ordinal algorithm is proved against "the next day".
* *Double precision (C49).* An operation whose exact result is a double returns it;
  on dyadic grids every result is one. The builder in doubles is then related step
  by step to the exact one, so that C07 and C08 hold of it.
* *End to end (C59).* Composition of validation, parameters, grid, splitting,
  aggregation and JSON.

## 5. Properties

<!-- properties -->
| id | property | status | result |
|----|----------|--------|--------|
| C01 | Neighbour case is exactly geometric contact | proved |  |
| C02 | Neighbour case is antisymmetric | proved | the last theorem shows why at least three columns are required |
| C03 | Wrap-around contact in a global mesh | proved |  |
| C04 | Initial cells tile the region | proved |  |
| C05 | Initial neighbour graph is exact adjacency | proved |  |
| C06 | Initial global neighbour graph wraps around | proved |  |
| C07 | Splitting keeps the neighbour graph exact (regional) | proved |  |
| C08 | Splitting keeps the neighbour graph exact (global) | proved |  |
| C09 | Splitting never raises and never leaves dangling ids | proved |  |
| C10 | Splitting keeps an exact tiling | proved |  |
| C11 | Neighbour relation is symmetric | proved |  |
| C12 | Adaptive splitting terminates within the depth limit | proved | holds whenever cell 0 is live, in particular on every freshly built mesh; a second call after cell 0 was split raises AttributeError (finding) |
| C13 | Adaptive splitting reaches a fixed point | proved |  |
| C14 | Only heterogeneous cells are split | proved |  |
| C15 | should_split decision rule | proved |  |
| C16 | Each datapoint belongs to exactly one cell | proved |  |
| C17 | Trimming across the antimeridian | partial | true for xarray datasets; false for DataFrames, where exactly the complementary longitudes are kept (finding) |
| C18 | Homogeneity condition classifies by fraction | proved |  |
| C19 | Too few datapoints | partial | false: the code answers CLR and never MIN, and such a cell can be split because of another source (finding) |
| C20 | Aggregates are bounded and order independent | partial | true for scalar sources except that COUNT of an xarray dataset counts missing values; MIN and MAX of vector sources depend on row order when magnitudes tie (findings) |
| C21 | Missing values are filled from the nearest ancestor | proved | with the fill type Nan, which is neither, the cell holds the text Nan (finding) |
| C22 | Missing vector components are filled | partial | true for value_fill_types parent; false for a numeric fill value, which is written under the joined name (finding) |
| C23 | Repeated data names: first non-NaN source wins | partial | true for scalar sources that fill with a number or from the parent; false for vector sources, where the last source overwrites, and after a source filling with Nan, where a cell without data raises TypeError (findings) |
| C24 | Built mesh cells and graph agree | proved |  |
| C25 | JSON round trip | partial | true except that a cell loses its time range, data under a reserved name is lost, and an edge at 180 comes back as -180 (findings) |
| C26 | Refining a loaded mesh keeps its graph exact | proved |  |
| C27 | Refining a loaded global mesh keeps wrap-around neighbours | partial | the loaded global graph is exact and stays so under any number of splits of cells that do not reach the antimeridian; splitting a cell that does reach it always loses its wrap-around neighbours (finding), so a split keeps the graph exact if and only if the cell is inland; whatever cells are split, no split raises, the cells keep tiling the region, and the graph lists only contacts and misses none but contacts across the antimeridian |
| C28 | split_points refines around the point | partial | true for points on none of the lines drawn by repeated halving; a point on a midline of its cell raises, a point on an edge is skipped (findings) |
| C29 | Point queries are unambiguous | partial | true for all points except those at longitude 180 or -180 inside a cell crossing the antimeridian (finding) |
| C30 | Merging keeps ids unique | proved |  |
| C31 | Merging replaces exactly the covered cells | proved |  |
| C32 | Merging keeps the graph exact | proved | the last theorem shows why the first mesh must still consist of cells lying in cells of its configured grid (finding) |
| C33 | Merging does not modify the other mesh | partial | false: every cell of the other mesh is renumbered in place (finding) |
| C34 | update_cellbox validates its index | partial | false: negative indices are accepted and indices beyond the end raise IndexError, not ValueError; in range it changes only that cell (finding) |
| C35 | Longitude arithmetic | proved |  |
| C36 | Boundary measures and quarter split | partial | true except that split raises when the middle meridian lies beyond 180, and that the constructor accepts ranges of zero and negative width (findings) |
| C37 | Polygon string round trip | proved | the last theorem shows that a western edge at 180 reads back as -180, which the statement allows |
| C38 | Boundary equality | partial | true of the spatial part; equality ignores the time range (finding) |
| C39 | Accepted configurations tile the region | partial | true for positive cell sizes, longitudes within the domain and, for ranges closing the circle, a width dividing 360; otherwise accepted configurations give overlapping columns, no cells, or an IndexError (findings) |
| C40 | Date parsing | partial | true of the documented forms; the validator accepts strings the parser rejects, years before 1000 come back unpadded with glibc, and some texts that are no dates are accepted (findings) |
| C41 | Dataloader factory | partial | true except that normalising twice differs when both a file and a folder are given, and two documented names are unknown (findings) |
| C42 | Default parameters never override the user | partial | idempotent for every class; keeping and filling fail for rectangles without height, vector shapes, and AMSR projections (findings) |
| C43 | Mesh comparison | partial | a mesh shows no difference with itself; cells present only in the first mesh are not reported, nor are graph nodes only one mesh has, and an integer column is not rounded (findings) |
| C44 | Validator slices partition the data | partial | true for source points off the cell edges; a point on a shared edge is used for every cell that touches it, and cells across the antimeridian get no points (findings) |
| C45 | Raster export sampling | partial | true exactly for square images with no pixel centre on a cell edge; lines and columns are swapped in the sampling, samples of meshes across the antimeridian lie outside the mesh, text values raise, and in double precision some resolutions raise ValueError (findings) |
| C46 | Seasonal lookup tables | partial | the density table is right for every range; the thickness table gives every day the values of all seasons of the range, so it is right exactly within a season (finding) |
| C47 | Splitting across the antimeridian (regional) | partial | tiling and the absence of errors hold for all split histories; the graph is exact after a split if and only if the quarters touch their neighbours without a shift by 360 degrees (finding: otherwise contacts are lost; what is listed stays right) |
| C48 | Data added to a built mesh is confined to each cell | partial | false: the added subset is never trimmed to the cell, so scalar sources raise on aggregation and vector sources give every cell the value of the whole region (findings); the source is added to every cell, and the value is right when all points lie in the cell |
| C49 | Floating point adjacency | partial | true for regions and cell sizes that are multiples of 2^-k through 43-k levels of splits: there double arithmetic is exact, and the whole mesh and its neighbour graph built and split in double precision are the exact ones; with cell sizes such as 0.2 touching cells of the grid are not recognised (findings) |
| C50 | Splitting is local | proved |  |
| C51 | Mesh configurations accepted | partial | exact for dictionaries; a path is never accepted (finding) |
| C52 | Vessel and route configurations accepted | proved |  |
| C53 | Fill type of a source | partial | numeric texts are kept as texts and lists raise TypeError (findings) |
| C54 | Rounding to significant figures | partial | exact for floats and lists; integers raise TypeError (finding) |
| C55 | Sampled validation compares like with like | partial | true for meshes inside the longitude range whose first cell is not split and data off the cell edges; otherwise samples fall outside the mesh or validation raises (findings) |
| C56 | Unpacking of lookup tables | partial | true if no two rows have the same index; the tables of C46 repeat days, so their rows are repeated or rejected (findings) |
| C57 | Values of lookup tables | partial | MIN, MAX and COUNT are exact; MEAN ignores the areas and raises if polygons only touch the cell, MEDIAN returns a row, the time range is ignored (findings) |
| C58 | Homogeneity of lookup tables | partial | every answer characterised; MIN is never returned, a cell without data is CLR and so goes on splitting (finding) |
| C59 | From configuration to mesh file, end to end | partial | proved end to end for non-negative minimum_datapoints, regions of positive height not crossing the antimeridian, and names that are not keys of the mesh file; a negative minimum passes the validator and then no mesh can be built (finding) |
| C60 | Synthetic shapes | partial | circles and gradients are right for resolutions of at least 2 unless a centre coordinate is 0 or, without a centre, the number of points is even; rectangles are twice too wide and high, checkerboards ignore the multiplier, shapes over the antimeridian lie outside the longitude range (findings) |
| C61 | Downsampling aggregates blocks | partial | MIN and MAX are exact; MEAN is exact where no value is missing and, like MEDIAN, always within the values of the block; MEAN, MEDIAN and STD are exactly those of each column first and then of the results, so that with missing values MEAN weighs the columns equally, and MEDIAN and STD are medians of medians and deviations of deviations; COUNT keeps the first entry of each block, other types and DataFrames are not downsampled (findings) |
| C62 | A constructed source holds the data of its region | partial | exact whenever the known data reach over the region, and cells always get their own points; data beside the region or along one latitude are kept whole, longitudes up to 360 are rejected, DataFrames across the antimeridian and datasets with decreasing latitudes lose their data (findings) |
| C63 | Data names | partial | true of scalar sources and of vector sources whose column names are distinct and free of commas; names that are already columns are accepted, set_data_col_name_list hands on a text, look-up tables are never renamed (findings) |
| C64 | Curl and difference from the mean vector | partial | exact for DataFrames with the points of a grid at one time; several times or no points raise ValueError, the sign of the curl decides on splits, on Datasets the axes are exchanged and calc_dmag raises, and with MAX it measures from the longest vector (findings) |
| C65 | Readable durations | partial | the sum of the units is within half the last unit; 60 minutes and 24.0 hours are printed just below a whole hour or day (findings) |
| C66 | Months and date ranges | partial | true for dates of the given month and year in order, and for ranges between equal times of day; dates of other years and reversed dates are accepted, and a range to a later time of day can lose its last day (findings) |
| C67 | Data files chosen by date | partial | exact for ERA5, DUACS and AMSR sources, and for ECMWF files in one directory; with several directories an older ECMWF run may be taken, and a dot in an IceNet path raises ValueError (findings) |
| C68 | Days of IceNet forecasts | partial | the days of the range but its last are read, from the last forecast before the range; the last day is never read, so a range of one day gives no data (finding) |
| C69 | Imported data | partial | exact for ERA5, BSOSE, Baltic, GEBCO, DUACS, North Sea, SOSE and csv sources with latitudes in the usual order, up to moving longitude 180 to -180; data at 180 are lost from regions ending there, ERA5 files with increasing latitudes give nothing, ERA5 wind vectors of the western hemisphere are lost, and MODIS sources always raise AttributeError (findings) |
| C70 | Aggregated vectors | partial | exact for MIN and MAX on data from one file and for the components of MEAN; with several csv files MIN and MAX raise ValueError, the mean mixes components of different points, Datasets without a whole vector give no mean and another STD, COUNT counts unknown vectors, and magnitudes are misplaced if a Dataset lists its dimensions in another order (findings) |
| C71 | Random fields | partial | true of uneven noise with increasing thresholds within the range of the field and of even sizes; other thresholds and fields of one point are NaN throughout, binary fields ignore their range, odd sizes have a wrong Fourier coordinate, fields over the antimeridian lie outside the region (findings) |
| C72 | Reprojected data | partial | exact whenever the x and y columns are given, and for AMSR end to end when its data reach over the region; with the default columns latitude and longitude are exchanged, AMSR data cannot be downsampled, csv files are trimmed before they are reprojected, and Visual_Ice data do not load without a given projection (findings); the fast method (rioxarray) is not modelled |
| C73 | Look-up tables read from files | partial | true of the table for shapes, and for csv files with the columns geometry and value in this order; a cell inside a polygon touching its edge has no value, means count polygons and not areas, and csv files with another order or with different value columns are not read (findings) |
| C74 | Forecast data end to end | partial | IceNet sources hold exactly the predictions, in percent, of the last forecast before the period at the cells of the region, but never for the last day of the period, so a period of one day has no data. ECMWF sources hold exactly the heights of the last run with pandas before version 2 or if the files' hours are increasing in reverse alphabetical order; otherwise KeyError. ORAS5 currents are cut to the region if on axes; on a curvilinear grid KeyError. |
| C75 | A mesh file says how to build its mesh again | partial | the file's configuration is a fixed point for every loader, and rebuilding gives the same mesh if each source names its files in one way (sources with unset random seeds do not give the same data again). The file of a merged mesh rebuilds the mesh before merging; a source with both 'file' and 'folder' reads the folder the second time (findings). That the chosen files are chosen again is proved for ERA5/DUACS, AMSR and ECMWF; the JSON text of the file is not modelled. |
| C76 | Merging a directory of meshes | partial | for files aligned with and inside the first mesh, with cells inside its cells, in full, from files to file; the order does not matter if no point is covered twice. With overlapping files the data, and with larger cells even whether cells overlap, depends on the listing order of the directory; meshes outside the bounds are accepted (findings) |
| C77 | GeoJSON export and save | partial | in full for columns without text in which unset flags are not mixed with other or missing values. An unset flag shows as 0 rather than null as soon as one cell lacks the flag; one fill value 'Nan' fails the export with TypeError, after the file was emptied; an unknown format is only logged; PNG without a parameter file fails with UnboundLocalError (findings) |
| C78 | Default colours of an exported image | partial | thresholds never decrease, and for a range of at least 8 the first three are distinct and inside the range. The last two always coincide; for values between -1 and 1 (any fraction) all four are 0; without a value the call fails after the image was written (findings) |
| C79 | From data files to the values of cells | partial | in full for sources without reprojection and downsampling whose name is no key of a cell, in regions not crossing the antimeridian. csv files with differently named value columns are refused even when a name is configured; longitudes 0..360 in csv files are not brought to the usual range, so such rows are silently lost, as are the rows of files without times beside files with times (findings) |
| C80 | The test automation runs the tests of changed files and reports them | partial | true with one branch, for tests that are methods or have parameters. With two branches only what the reference branch changed since the merge base is tested, nothing of the tested branch; a test function without parameters raises IndexError, an expected failure ValueError; test files that cannot be imported go unreported; the validator's tests are run for no change (findings) |
| C81 | The size of a boundary is its great-circle diagonal over the square root of two | proved | true as stated, over the real numbers; but a band around the whole globe has the size of its height alone (finding) |
| C82 | Which waypoints are accepted | partial | what is accepted is characterised exactly; false as stated: coordinates are not checked against any range, a column of True and False passes for coordinates, and tables whose index has the name of a column, or with columns index and level_0, raise ValueError (findings) |
| C83 | Plots of a mesh | partial | true for regions not crossing the antimeridian and columns of numbers that are not all equal; a constant column is painted transparent, with one infinite number all finite ones look alike, names some cell lacks raise KeyError, and meshes across the antimeridian cannot be plotted: ValueError (findings) |
| C84 | Validating vector fields | partial | proved for source points that are on no edge of a cell and cells that have both values; a point on an edge is counted for each cell it touches (finding); the square root is a parameter |
| C85 | Meshes kept of a test run | partial | which files are kept, removed and untouched is characterised exactly by the four comparisons of C43; false as stated: the results of the tests are ignored, and a new mesh that lost a cell is removed as if identical (findings) |
| C86 | How a cell is written in the mesh file | partial | exact for all cells that can be drawn and data without reserved names; false as stated: the centre of a cell halfway across the antimeridian is not in its own polygon, a cell from a longitude to itself has a half width of 180, and data called cx replace the centre (findings) |
| C87 | Meshes generated from scalars and vectors | partial | proved for vectors filled from the parent, with conditions on dmag (DataFrames) or none (Datasets), and names of their own; other fill types and repeated names of vectors go wrong (C22, C23), conditions on the curl are treated in Curl.v |
| C88 | From files of scalars and vectors to the values of cells | partial | in full for sources of two components without reprojection and downsampling, in regions not crossing the antimeridian; ORAS5 currents are treated singly (C69, C74). ERA5 winds at longitudes 0..360 are not brought to the usual range, unlike wave directions, so those west of Greenwich are silently lost (finding) |
| C89 | From a configuration across the antimeridian to a mesh file and back | partial | in full except for the graph after splits, of which it is shown that it lists nothing wrong (it can miss contacts: C89_graph_refuted), for scalar sources kept as Datasets whose longitudes lie in (-180, 180]. Sources kept as DataFrames give the cells that cross 180 the points everywhere else (C89_frames_refuted), and a point at -180 is not found by the cell that ends at 180 (C89_standard_refuted) |
| C90 | Meshes from scalars, vectors and look-up tables | partial | for tables aggregated by COUNT, MIN, MAX, MEAN and STD under the names of their columns, and vectors as in C87; the median of a table raises TypeError (C90_median_refuted) and a configured name of protected areas, thickness or density raises KeyError (C90_name_refuted); polygons without a configured name raise TypeError (C90_unnamed_refuted). MEAN and STD give all polygons one weight (C57, C73) |
| C91 | From files of every kind to the mesh | partial | for scalars and vectors from csv and netCDF files as in C88, shapes as in C93 and tables as in C90, with names of their own for vectors; the other readers' files are C21 and later claims. MEAN and STD of a table give all polygons one weight (C57, C73) |
| C92 | Looking up cells of a Mesh | partial | the list is right for every mesh; but CellBox has neither contains_point nor long, lat, width, height or add_data_points, so both look-ups raise AttributeError in every mesh with a cell, hence in every built one (finding). What they would do if CellBox had these attributes is proved as C92_lookup_partial and C92_rows_partial |
| C93 | Meshes from configured shapes | partial | for all shapes with a resolution of at least 2 by 2, centres other than 0 or middles of an odd number of points, rectangles taken at twice their size and chequered boards with the multiplier 1 (C60); a rectangle without height and vector shapes without all their parameters raise AttributeError (finding). Shapes also stand beside the other sources in C91_whole_partial |
| C94 | Sessions of the command line tools | partial | rebuilding for sources that name their files in one way (C75), exporting for drawable cells and data without reserved names (C25), merging for files as in C76; merge_mesh cannot read its mesh from standard input, and a GeoJSON export that fails leaves its output empty, even if that is the mesh itself (findings). Interrupted writes are not modelled: json.dump of a complete mesh succeeds |
| C95 | Random fields in the whole way to the mesh | partial | under the assumptions of C91 for the other sources; sizes of at least 2, thresholds within reach of the noise, no downsampling or reprojection, no splitting conditions for vectors; the noise itself (numpy's generator and Fourier transform) is a parameter; scalar_grf and binary_grf with default parameters cannot be built because the factory requires "binary" (finding) |
| C96 | Sea ice on projected grids and of forecasts in the whole way to the mesh | partial | under the assumptions of C95 for the other sources; AMSR files on one grid and projected within 180 degrees, slow reprojection, no downsampling, IceNet files named by date without another dot, its leads reaching beyond the period; the projection (pyproj) and the contents of files are parameters; Visual_Ice with default columns cannot be built (finding) |
| C97 | Wind directions and MODIS in the whole way to the mesh | partial | under the assumptions of C96 for the other sources; without reprojection and downsampling; the angle of a vector (arctan2, in degrees) is a parameter; the arithmetic mean of directions on both sides of 0 is the opposite direction, and a configuration that names MODIS is never built (findings) |
| C98 | Downsampled grids in the whole way to the mesh | partial | for MIN, MAX, MEAN and MEDIAN, whose block values are those of C61 (means exact where nothing is missing), and for COUNT, for which the first of each block is kept; under the assumptions of C97 for the other sources; a block across the edge of a cell carries values into the next cell (finding) |
| C99 | ECMWF wave heights and ORAS5 currents in the whole way to the mesh | partial | for ECMWF files in one directory on one grid, ORAS5 currents on axes of latitude and longitude; with pandas 2 or later only if the hours increase from the last name to the first, otherwise KeyError; ORAS5's own grid is never built (findings); under the assumptions of C98 for the other sources |
| C100 | Downsampled vectors in the whole way to the mesh | partial | for MIN, MAX, MEAN and COUNT without conditions on the vectors and without reprojection; blocks take the largest components one by one, so that MAX can give a vector longer than every vector of the file (finding); COUNT counts only the first vector of each block (finding); under the assumptions of C99 for the other sources |
| C101 | Downsampled wave heights in the whole way to the mesh | partial | for MIN, MAX, MEAN, MEDIAN and COUNT, as in C98; with pandas 2 or later the hours must be in the order of the names as in C99; the forecasts are not trimmed before blocks are formed, so that a block across the edge of the region carries heights from outside it (finding) |
| C102 | Downsampled wind directions, ORAS5 currents and sea ice in the whole way to the mesh | partial | wind directions with the aggregates of C98 and currents with those of C100, under the assumptions of C101; directions are aggregated within a block as numbers, as in the finding of C97; AMSR and Visual_Ice are read on a grid without a dimension lat, so that every configuration that downsamples them by other factors than 1 and 1 with MIN, MAX, MEAN, MEDIAN, STD or COUNT ends in an error (finding) |
| C103 | A region's value is exactly the aggregate asked for | partial | exact for MIN, MAX, MEAN, MEDIAN, STD and, for a Dataset, RMSE (COUNT is in C20); a DataFrame divides by the number of values less one and gives NaN for a single value, a Dataset divides by the number and gives 0 (finding) |
<!-- end -->

## 6. Trusted base

1. **Coq's kernel** (8.16.1), including `vm_compute`, which is used in examples and
   in computations on concrete data. No plugin, no kernel check switched off.
2. **Axioms.** None of our own. `Print Assumptions` answers "Closed under the global
   context" for every theorem in the manifest except those of C81, which are about
   real numbers and rest on the axioms of the standard library's `Reals`:
   `ClassicalDedekindReals.sig_not_dec`, `ClassicalDedekindReals.sig_forall_dec`,
   `FunctionalExtensionality.functional_extensionality_dep` and
   `Classical_Prop.classic` (list below). `coqchk`/`vcheck` also list
   `Coq.ssr.ssrunder.Under_rel.*`: these are the standard library's own, loaded
   indirectly by its other files; no theorem depends on them.
3. **The model's faithfulness** to the cited lines, established by reading.

Print Assumptions, theorem by theorem:

<!-- assumptions -->
Closed under the global context (491 theorems): `C01_case_is_contact`, `C02_case_antisymmetric`, `C02_global_case_antisymmetric`, `C02_two_columns_refuted`, `C03_global_case_is_contact`, `C04_initial_cells`, `C04_divisible_accepted`, `C05_initial_graph_exact`, `C06_initial_global_graph_exact`, `C07_split_graph_exact`, `C08_split_global_graph_exact`, `C09_split_never_raises`, `C09_no_dangling`, `C09_ids_never_reused`, `C10_split_quarters`, `C10_live_cells_tile`, `C11_neighbours_symmetric`, `C12_split_to_depth_terminates`, `C12_built_depth`, `C12_second_call_refuted`, `C13_fixed_point`, `C14_only_heterogeneous_split`, `C14_idle`, `C15_should_split_rule`, `C15_breadth_first`, `C15_order_independent`, `C16_trim_half_open`, `C16_xarray_axes`, `C16_points_partitioned`, `C16_split_partitions`, `C16_loaders_trim_exactly`, `C17_xarray_crossing`, `C17_dataframe_complement`, `C17_dataframe_refuted`, `C18_homogeneity`, `C18_fraction_range`, `C18_vector`, `C19_too_few_is_clr`, `C19_never_min`, `C19_too_few_refuted`, `C20_aggregates_bounded`, `C20_order_independent`, `C20_count`, `C20_no_data`, `C20_dataset_count_refuted`, `C20_vector_order_refuted`, `C21_missing_values_filled`, `C21_filled_value_meaning`, `C21_nan_text`, `C22_vector_components_filled`, `C22_numeric_fill_refuted`, `C23_first_known_source_wins`, `C23_vector_refuted`, `C23_nan_refuted`, `C24_built_mesh`, `C24_built_mesh_agrees`, `C25_round_trip`, `C25_same_neighbours`, `C25_built_meshes_load`, `C25_times_refuted`, `C25_reserved_refuted`, `C25_edge_refuted`, `C26_split_keeps_graph_exact`, `C26_refined_loaded_mesh`, `C26_histories`, `C27_loaded_global_exact`, `C27_split_refuted`, `C27_inland_partial`, `C27_exactly_inland`, `C27_sound`, `C28_split_points`, `C28_both_sides`, `C28_no_excess`, `C28_midline_raises`, `C28_refuted`, `C28_edge_skipped`, `C29_query_unambiguous`, `C29_query_on_globe`, `C29_antimeridian_refuted`, `C30_merge_cells`, `C31_accepted_exactly_aligned`, `C30_merge_cells`, `C31_merge_tiles`, `C32_merge_graph_exact`, `C32_second_merge_refuted`, `C33_other_mesh_changed`, `C33_refuted`, `C33_id_entry_refuted`, `C34_update_cellbox`, `C34_refuted`, `C35_longitude_domain`, `C35_longitude_distance`, `C36_measures`, `C36_split_partial`, `C36_split_refuted`, `C36_width_refuted`, `C37_polygon_text`, `C37_two_parts`, `C37_edge_refuted`, `C38_spatial_partial`, `C38_refuted`, `C39_partial`, `C39_boundary`, `C39_boundary_only`, `C39_closing_refuted`, `C39_negative_refuted`, `C39_globe_refuted`, `C40_today`, `C40_dates`, `C40_relative`, `C40_infinite`, `C40_idempotent`, `C40_rejects`, `C40_validator_partial`, `C40_validator_refuted`, `C40_early_years_refuted`, `C40_accepts_refuted`, `C41_letter_case`, `C41_selects`, `C41_required`, `C41_classes`, `C41_table_unambiguous`, `C41_normalises`, `C41_normalise_twice_partial`, `C41_normalise_refuted`, `C41_documented_refuted`, `C42_idempotent`, `C42_keeps`, `C42_keeps_partial`, `C42_fills_partial`, `C42_tables`, `C42_rectangle_refuted`, `C42_vector_shape_refuted`, `C42_amsr_refuted`, `C42_lut_name_refuted`, `C43_self`, `C43_boundaries_partial`, `C43_refuted`, `C43_values`, `C43_tolerance_refuted`, `C43_attributes`, `C43_attribute_order_refuted`, `C43_graph`, `C43_graph_refuted`, `C43_return_type_refuted`, `C44_slice`, `C44_covered`, `C44_each_once_partial`, `C44_refuted`, `C44_antimeridian_refuted`, `C45_georeference`, `C45_positions`, `C45_exactly_square`, `C45_partial`, `C45_refuted`, `C45_edge_refuted`, `C45_antimeridian_refuted`, `C45_text_refuted`, `C45_float_refuted`, `C45_params`, `C46_regions`, `C46_density`, `C46_thickness_partial`, `C46_thickness_all`, `C46_refuted`, `C47_initial`, `C47_tiling`, `C47_partial`, `C47_exactly`, `C47_west`, `C47_sound`, `C47_refuted`, `C48_added`, `C48_partial`, `C48_scalar_refuted`, `C48_vector_xarray_refuted`, `C48_vector_extremes_refuted`, `C48_refuted`, `C48_parent_refuted`, `C48_split_refuted`, `C48_configured`, `C49_exact_partial`, `C49_partial`, `C49_mesh`, `C49_graph`, `C49_refuted`, `C49_rows_refuted`, `C50_split_is_local`, `C51_accepts`, `C51_region_unique`, `C51_path_refuted`, `C52_vessel`, `C52_route`, `C53_fill_type`, `C53_refuted`, `C54_float`, `C54_list`, `C54_int_refuted`, `C55_samples`, `C55_samples_refuted`, `C55_square`, `C55_aligned_partial`, `C55_edge_refuted`, `C55_split_refuted`, `C56_partial`, `C56_repeats_refuted`, `C56_multi_refuted`, `C57_extremes`, `C57_none`, `C57_mean`, `C57_mean_partial`, `C57_mean_refuted`, `C57_touching_refuted`, `C57_median_refuted`, `C57_times_refuted`, `C58_hom`, `C58_refuted`, `C59_generated_partial`, `C59_any_loaders`, `C59_negative_refuted`, `C60_circle_partial`, `C60_gradient`, `C60_vector_gradient`, `C60_checkerboard_partial`, `C60_rectangle_doubled`, `C60_names`, `C60_rectangle_refuted`, `C60_zero_centre_refuted`, `C60_even_refuted`, `C60_checkerboard_refuted`, `C60_antimeridian_outside`, `C60_antimeridian_refuted`, `C61_extremes`, `C61_mean_partial`, `C61_median_partial`, `C61_steps`, `C61_count`, `C61_blocks`, `C61_factors`, `C61_mean_refuted`, `C61_median_refuted`, `C61_std_refuted`, `C61_count_refuted`, `C61_ignored_refuted`, `C62_rows_partial`, `C62_grid_partial`, `C62_cells_rows`, `C62_cells_grid`, `C62_outside_refuted`, `C62_line_refuted`, `C62_longitudes_refuted`, `C62_crossing_refuted`, `C62_descending_refuted`, `C63_scalar_name`, `C63_scalar_rename`, `C63_grid_rename`, `C63_vector_partial`, `C63_position_refuted`, `C63_equal_names_refuted`, `C63_no_columns_refuted`, `C63_comma_refuted`, `C63_name_list_refuted`, `C63_lut_refuted`, `C64_curl`, `C64_affine`, `C64_thin`, `C64_collapsed`, `C64_homogeneity`, `C64_dmag`, `C64_dmag_collapsed`, `C64_utils`, `C64_dataset`, `C64_sign_refuted`, `C64_times_refuted`, `C64_empty_refuted`, `C64_dataset_refuted`, `C64_dmag_refuted`, `C65_stated`, `C65_minutes_partial`, `C65_hours_partial`, `C65_refuted`, `C66_month_partial`, `C66_month_rejects`, `C66_range`, `C66_month_refuted`, `C66_times_refuted`, `C67_era5`, `C67_amsr`, `C67_undated`, `C67_ecmwf`, `C67_icenet_partial`, `C67_ecmwf_refuted`, `C67_icenet_refuted`, `C68_days_partial`, `C68_zrange`, `C68_last_day_refuted`, `C69_era5_partial`, `C69_wind_mag_partial`, `C69_bsose_depth_partial`, `C69_bsose_ice_partial`, `C69_plain`, `C69_reversed_partial`, `C69_csv`, `C69_csv_none`, `C69_sose`, `C69_baltic_current`, `C69_modis_clouds_partial`, `C69_dateline_refuted`, `C69_ascending_refuted`, `C69_wind_refuted`, `C69_modis_refuted`, `C70_extremes`, `C70_none`, `C70_mean_partial`, `C70_std_partial`, `C70_count_partial`, `C70_agree`, `C70_one_file`, `C70_magnitude_partial`, `C70_files_refuted`, `C70_mean_refuted`, `C70_agree_refuted`, `C70_count_refuted`, `C70_magnitude_refuted`, `C71_grid`, `C71_field`, `C71_binary`, `C71_scalar_partial`, `C71_range`, `C71_vector`, `C71_fourier_partial`, `C71_thresholds_refuted`, `C71_one_refuted`, `C71_binary_range_refuted`, `C71_fourier_refuted`, `C71_antimeridian_refuted`, `C72_rows`, `C72_missing`, `C72_grid`, `C72_same`, `C72_amsr_partial`, `C72_amsr_none`, `C72_visual_iced_partial`, `C72_default_refuted`, `C72_downsample_refuted`, `C72_csv_refuted`, `C72_csv_metres_refuted`, `C72_visual_iced_refuted`, `C72_csv_trim`, `C72_visual_iced_files`, `C73_csv_partial`, `C73_shapes`, `C73_extremes`, `C73_edge_refuted`, `C73_zone_refuted`, `C73_order_refuted`, `C73_columns_refuted`, `C73_rejected`, `C74_icenet_partial`, `C74_icenet_only`, `C74_icenet_last_refuted`, `C74_ecmwf_partial`, `C74_ecmwf_refuted`, `C74_oras5_partial`, `C74_oras5_refuted`, `C75_rebuild_partial`, `C75_file_says`, `C75_files`, `C75_merged_refuted`, `C75_folder_refuted`, `C76_directory`, `C76_order_partial`, `C76_all_or_nothing`, `C76_order_refuted`, `C76_overlap_refuted`, `C76_outside_refuted`, `C77_features_partial`, `C77_flags`, `C77_text`, `C77_save`, `C77_unknown_format`, `C77_png`, `C77_emptied`, `C77_default_output`, `C77_flags_refuted`, `C77_text_refuted`, `C77_save_refuted`, `C78_table`, `C78_partial`, `C78_repeated`, `C78_fractions`, `C78_empty`, `C78_refuted`, `C79_files_partial`, `C79_columns`, `C79_no_files`, `C79_gebco_variables`, `C79_longitudes_refuted`, `C79_undated_refuted`, `C80_one_branch`, `C80_two_branches`, `C80_tested_branch_refuted`, `C80_statistics`, `C80_function_refuted`, `C80_collection_refuted`, `C80_no_summary`, `C80_expected_failure_refuted`, `C80_tables`, `C80_validator_refuted`, `C82_file`, `C82_frame`, `C82_others`, `C82_range_refuted`, `C82_flags_refuted`, `C82_index_refuted`, `C83_map`, `C83_parts`, `C83_flags`, `C83_image_partial`, `C83_constant_refuted`, `C83_infinite_refuted`, `C83_missing`, `C83_not_numbers`, `C83_antimeridian_refuted`, `C84_each_once_partial`, `C84_refuted`, `C85_saved_partial`, `C85_flags_refuted`, `C85_refuted`, `C86_entry`, `C86_refuted`, `C87_generated_partial`, `C87_settled`, `C88_files_partial`, `C88_two`, `C88_wind_refuted`, `C89_across_partial`, `C89_any_loaders`, `C89_graph_refuted`, `C89_frames_refuted`, `C89_standard_refuted`, `C90_generated_partial`, `C90_settled`, `C90_csv`, `C90_shapes`, `C90_dated`, `C90_median_refuted`, `C90_name_refuted`, `C90_unnamed_refuted`, `C91_whole_partial`, `C92_listed`, `C92_lookup_refuted`, `C92_built_refuted`, `C92_lookup_partial`, `C92_rows_partial`, `C93_described`, `C93_shapes_partial`, `C93_defaults_refuted`, `C94_only_outputs`, `C94_all_or_nothing`, `C94_create`, `C94_rebuild_partial`, `C94_export_json_partial`, `C94_merge`, `C94_stdin`, `C94_defaults`, `C94_merge_stdin_refuted`, `C94_export_refuted`, `C95_described`, `C95_whole_partial`, `C95_defaults_refuted`, `C96_whole_partial`, `C96_columns_refuted`, `C97_whole_partial`, `C97_modis_refuted`, `C97_mean_refuted`, `C98_whole_partial`, `C98_edge_refuted`, `C99_whole_partial`, `C99_order_refuted`, `C99_oras5_refuted`, `C100_whole_partial`, `C100_invented_refuted`, `C100_count_refuted`, `C101_whole_partial`, `C101_outside_refuted`, `C102_whole_partial`, `C102_ice_refuted`, `C103_exact`, `C103_region`, `C103_std_refuted`.

* `C81_great_circle`: `ClassicalDedekindReals.sig_not_dec`, `ClassicalDedekindReals.sig_forall_dec`, `FunctionalExtensionality.functional_extensionality_dep`, `Classical_Prop.classic`

* `C81_length`: `ClassicalDedekindReals.sig_not_dec`, `ClassicalDedekindReals.sig_forall_dec`, `FunctionalExtensionality.functional_extensionality_dep`

* `C81_band_refuted`: `ClassicalDedekindReals.sig_not_dec`, `ClassicalDedekindReals.sig_forall_dec`, `FunctionalExtensionality.functional_extensionality_dep`, `Classical_Prop.classic`
<!-- end -->

### Modelled

| code | model |
|------|-------|
| `utils.py`: `longitude_domain`, `longitude_distance`, `round_to_sigfig`, `frac_of_month`, `date_range`, `convert_decimal_days`, `curl`, `divergence` | Geo, Compare, Times, Curl |
| `mesh_generation/boundary.py`: constructors, validation, measures, polygons and their text, dates, split, equality (not `calc_size`, `__str__`) | Geo, Wkt, Dates, Config |
| `mesh_generation/direction.py`, `neighbour_graph.py` | Graph |
| `mesh_generation/cellbox.py`, `metadata.py`, `mesh.py` | Cell, Builder, AddLoader, MeshLookup |
| `mesh_generation/mesh_builder.py` | Builder, AddLoader, Config, Params, Pipeline |
| `mesh_generation/aggregated_cellbox.py`, `environment_mesh.py` (JSON, queries, split, merge, update, `to_tif` up to GDAL) | Env, Raster |
| `config_validation/*` (mesh, vessel and route schemas, flexible input) | Config |
| `dataloaders/factory.py`, all `add_default_params` | Params |
| `dataloaders/scalar/abstract_scalar.py`, `vector/abstract_vector.py`: trimming, values, homogeneity; `__init__` and `calculate_coverage`; `downsample`; names of data columns; `calc_curl`, `calc_dmag` | Loaders; Construct; Downsample; Names; Curl |
| `dataloaders/scalar/era5_*.py`, `amsr.py`, `ecmwf_sig_wave_height.py`, `icenet.py`, `vector/era5_*.py`, `duacs_current.py`: which files and which forecast days are read | Files |
| `import_data` of `scalar/era5_*.py`, `bsose_*.py`, `baltic_sea_ice.py`, `gebco.py`, `modis.py`, `scalar_csv.py`, `vector/era5_wind.py`, `baltic_current.py`, `duacs_current.py`, `north_sea_current.py`, `sose.py`, `vector_csv.py`: what is done to the opened file | Import |
| `vector/abstract_vector.py`: `get_value` on frames with repeated labels, `add_mag_dir` on Datasets | VecAgg |
| `scalar/scalar_grf.py`, `vector/vector_grf.py`, `utils.py`: `gaussian_random_field` after the transform, `fftind` | Grf |
| `abstract_scalar.py`, `abstract_vector.py`: `reproject` (accurate method); `amsr.py`, `visual_iced.py`: `import_data` | Reproject |
| `dataloaders/scalar/shape.py`, `vector/vector_shape.py` (`vector_shape.py` circles and rectangles as their scalar counterparts) | Shapes |
| `dataloaders/lut/abstract_lut.py`, `thickness.py`, `density.py` | Lut |
| `lut_csv.py`, `lut_geojson.py`, `lut_shapefile.py`, `scotland_ncmpa.py`: `import_data`; `abstract_lut.py` with booleans and NaN | LutFiles |
| `icenet.py`, `ecmwf_sig_wave_height.py`, `oras5_current.py`: `import_data` whole | Forecast; ECMWF and ORAS5 as configured sources: WaveSources |
| what `MeshBuilder.__init__` writes back into the configuration; `cli.py` `rebuild_mesh_cli` | Rebuild |
| `cli.py` `merge_mesh_cli` | MergeDir |
| `cli.py` 75-199, the four commands on the files of a disk | Cli |
| `scalar_grf.py`, `vector_grf.py` as sources of a configuration | GrfSources |
| `amsr.py`, `icenet.py`, `visual_iced.py` as sources of a configuration (files on one grid, slow reprojection) | IceSources |
| `era5_wind_dir.py`, `modis.py` as sources of a configuration (the arctangent is a parameter) | WindSources |
| `environment_mesh.py` `to_geojson`, `save`, `to_png` up to the plotter; `cli.py` `export_mesh_cli` | Export |
| `environment_mesh.py` `set_colour` of `to_tif`, up to the colour file | Colour |
| `abstract_scalar.py` `__init__` and `import_data` of the csv, GEBCO, Baltic, BSOSE and ERA5 wave and wind speed loaders, from opened files to a data source of the builder | Sources |
| `test_automation/test_automater.py` except its printing, `meshiphi/__init__.py` tables, `cli.py` `meshiphi_test_cli` | Automate |
| `boundary.py` `calc_size`, over the real numbers | GreatCircle |
| `config_validator.py` `validate_waypoints` | Waypoints |
| `abstract_vector.py` loaders of Datasets as the mesh sees them (`trim_datapoints`, `get_value`) | VecLoader |
| `abstract_vector.py` `__init__` with `import_data` of vector_csv, sose, baltic_current, duacs_current, north_sea_current, era5_wind, era5_wave_direction_vector | VecSources |
| `test_automater.py` `save_tests`, `compare_meshes`, `extract_test_meshes` | AutoSave |
| `mesh_plotter.py` and `environment_mesh.py` `to_png`, as the list of what is painted | Plot |
| `mesh_validation/*` | Compare, Validate |

### Not modelled

* numpy, pandas, xarray, shapely, GDAL, jsonschema, scikit-learn themselves: the
  calls the code makes are replaced by definitions of what the documentation says
  they do (each at its definition). In particular: `np.arange` is `a + k*s` while
  below the end; `%` on floats is the mathematical remainder; jsonschema follows
  draft 6 or later (5.0 is an integer, booleans are not numbers); a `min`, `max`
  or `mean` skips NaN; `datetime.fromisoformat` accepts `YYYY-MM-DD` only (as
  before Python 3.11).
* Strings are sequences of 8-bit characters; case folding is ASCII only.
* The parsing and printing of numbers in WKT text is a parameter with the property
  that printing then reading gives the number back.
* Opening and decoding data files;
  the projections themselves (any function), fast reprojection (rioxarray) and the
  dask/NetCDF back ends.
* The random numbers and the Fourier transform of the random fields: the transformed
  noise is any list of numbers.
* JSON encoding of the mesh: a file is the tree of values, NaN is `null`.
* Logging, progress bars, the drawing of plots (matplotlib, cartopy), the parsing of the
  command line's arguments (`cli.py` 13-73), the plots and printed reports of the
  test automation (git and pytest are any trees of files and any output), the text
  of GeoJSON files, gdaldem.
* Memory and time.
