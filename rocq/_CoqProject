-Q theories Verif
theories/Base/Result.v
theories/Registry/Model.v
theories/Registry/Spec.v
theories/Registry/Proofs.v
theories/Registry/Props.v
theories/Partition/EndCells.v
theories/Partition/Spec.v
theories/Partition/EndCellsProofs.v
theories/Mapping/Model.v
theories/Mapping/Spec.v
theories/Mapping/Proofs.v
theories/Mapping/Props.v
theories/Base/Arith.v
theories/Partition/Rebalance.v
theories/Partition/RebalanceProofs.v
theories/Base/FloatStep.v
theories/Base/B64.v
theories/Partition/RebalanceB64.v
theories/Partition/Props.v
theories/Bin/Model.v
theories/Bin/Proofs.v
theories/Bin/Props.v
theories/Core/Move.v
theories/Core/MoveProofs.v
theories/Core/Threads.v
theories/Core/ThreadsProofs.v
theories/Core/Model.v
theories/Core/Spec.v
theories/Core/Proofs.v
theories/Core/History.v
theories/Core/HistoryProofs.v
theories/Core/Props.v
theories/Names/Model.v
theories/Names/Spec.v
theories/Names/Proofs.v
theories/Names/Props.v
theories/Solution/Model.v
theories/Solution/Spec.v
theories/Solution/Proofs.v
theories/Solution/Props.v
theories/Conc/Model.v
theories/Conc/Spec.v
theories/Conc/Proofs.v
theories/Conc/Props.v
theories/Conc/Ith.v
theories/Reactant/Model.v
theories/Reactant/Spec.v
theories/Reactant/Proofs.v
theories/Uz/Model.v
theories/Uz/Spec.v
theories/Uz/Proofs.v
theories/Uz/Props.v
theories/Init/Model.v
theories/Init/Spec.v
theories/Init/Proofs.v
theories/Init/CellModel.v
theories/Init/Props.v
theories/Init/CellProps.v
theories/SelOut/Model.v
theories/SelOut/Spec.v
theories/SelOut/Proofs.v
theories/SelOut/ThreadProofs.v
theories/SelOut/GetProofs.v
theories/SelOut/Props.v
theories/SelOut/Select.v
theories/Find/Model.v
theories/Find/Spec.v
theories/Find/Proofs.v
theories/Find/Props.v
theories/Settings/Model.v
theories/Settings/Spec.v
theories/Settings/Proofs.v
theories/Settings/Props.v
theories/Files/Model.v
theories/Files/Spec.v
theories/Files/Proofs.v
theories/Files/Props.v
theories/Lang/Model.v
theories/Lang/Spec.v
theories/Lang/Proofs.v
theories/Lang/Props.v
theories/Run/Model.v
theories/Run/Spec.v
theories/Run/Proofs.v
theories/Run/Props.v
theories/Boundary/Model.v
theories/Boundary/Spec.v
theories/Boundary/Proofs.v
theories/Boundary/Props.v
theories/Utility/Model.v
theories/Utility/Spec.v
theories/Utility/Proofs.v
theories/Utility/Props.v
theories/Gas/Model.v
theories/Gas/Spec.v
theories/Gas/Proofs.v
theories/Gas/Props.v
theories/Yaml/Model.v
theories/Yaml/Store.v
theories/Yaml/Spec.v
theories/Yaml/Proofs.v
theories/Yaml/Props.v
theories/Bmi/Model.v
theories/Bmi/Spec.v
theories/Bmi/Proofs.v
theories/Bmi/Props.v
theories/Mpi/Comm.v
theories/Mpi/Methods.v
theories/Mpi/Model.v
theories/Mpi/Spec.v
theories/Mpi/CommProofs.v
theories/Mpi/Cells.v
theories/Mpi/Parts.v
theories/Mpi/Agree.v
theories/Mpi/Calls.v
theories/Mpi/Fetch.v
theories/Mpi/Changes.v
theories/Mpi/RunCells.v
theories/Mpi/SelOut.v
theories/Mpi/DumpProofs.v
theories/Mpi/Proofs.v
theories/Mpi/Exec.v
theories/Mpi/Props.v
theories/Species/Model.v
theories/Species/Spec.v
theories/Species/Proofs.v
theories/Species/Props.v
theories/Species/Ith.v
theories/Transfer/Model.v
theories/Transfer/Spec.v
theories/Transfer/Proofs.v
theories/Transfer/Props.v
theories/Auto/Model.v
theories/Auto/Spec.v
theories/Auto/Proofs.v
theories/Auto/Props.v
theories/Wrap/Model.v
theories/Wrap/Spec.v
theories/Wrap/Props.v
theories/BmiText/Model.v
theories/BmiText/Spec.v
theories/BmiText/Proofs.v
theories/BmiText/Props.v
theories/Raw/Fields.v
theories/Raw/Model.v
theories/Raw/Spec.v
theories/Raw/Lines.v
theories/Raw/Proofs.v
theories/Raw/Props.v
theories/Reload/Model.v
theories/Reload/Spec.v
theories/Reload/Proofs.v
theories/Reload/Props.v
theories/Step/Model.v
theories/Step/Spec.v
theories/Step/Round.v
theories/Step/Proofs.v
theories/Step/Props.v
theories/Inst/Model.v
theories/Inst/Spec.v
theories/Inst/Proofs.v
theories/Inst/Props.v
theories/Ids/Model.v
theories/Ids/Spec.v
theories/Ids/Proofs.v
theories/Ids/NameProofs.v
theories/Ids/Threads.v
theories/Ids/Props.v
theories/UzMove/Model.v
theories/UzMove/Spec.v
theories/UzMove/Proofs.v
theories/UzMove/Props.v
theories/Print/Model.v
theories/Print/Spec.v
theories/Print/Proofs.v
theories/Print/Props.v
theories/Direct/Model.v
theories/Direct/Spec.v
theories/Direct/Proofs.v
theories/Direct/Props.v
theories/Delete/Model.v
theories/Delete/Spec.v
theories/Delete/Proofs.v
theories/Delete/Props.v
theories/Copy/Model.v
theories/Copy/Spec.v
theories/Copy/Proofs.v
theories/Copy/Props.v
theories/Lists/Model.v
theories/Lists/Spec.v
theories/Lists/Proofs.v
theories/Lists/Props.v
theories/Worker/Model.v
theories/Worker/Spec.v
theories/Worker/Proofs.v
theories/Worker/Props.v
theories/Python/Model.v
theories/Python/Spec.v
theories/Python/Proofs.v
theories/Python/Props.v
theories/Start/Model.v
theories/Start/Spec.v
theories/Start/Proofs.v
theories/Start/Props.v
theories/Modes/Model.v
theories/Modes/Spec.v
theories/Modes/Proofs.v
theories/Modes/Props.v
theories/Balance/Model.v
theories/Balance/Spec.v
theories/Balance/Proofs.v
theories/Balance/B64Proofs.v
theories/Balance/Props.v
