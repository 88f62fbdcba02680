-Q theories Verif
theories/Model/Py.v
theories/Model/Command.v
theories/Model/Core.v
theories/Model/Config.v
theories/Model/PyFloat.v
theories/Model/Note.v
theories/Model/State.v
theories/Model/Attr.v
theories/Model/Ticks.v
theories/Model/Song.v
theories/Model/Serializer.v
theories/Model/Dataclass.v
theories/Model/Dao.v
theories/Model/Document.v
theories/Model/Json.v
theories/Model/Extract.v
theories/Model/Csv.v
theories/Model/Main.v
theories/Spec/VgmFormat.v
theories/Proofs/PyLemmas.v
theories/Proofs/CoreProofs.v
theories/Model/Session.v
theories/Proofs/ReaderProofs.v
theories/Spec/Sessions.v
theories/Proofs/SessionProofs.v
theories/Props/Reader.v
theories/Model/History.v
theories/Model/Heap.v
theories/Spec/Ym2151.v
theories/Proofs/StateProofs.v
theories/Proofs/KeyProofs.v
theories/Spec/Ranges.v
theories/Proofs/FileProofs.v
theories/Proofs/ChipProofs.v
theories/Proofs/ChipProofs2.v
theories/Props/Chip.v
theories/Spec/Rhythm.v
theories/Proofs/TickProofs.v
theories/Proofs/FloatProofs.v
theories/Proofs/TempoProofs.v
theories/Proofs/TempoProofs2.v
theories/Proofs/BpmProofs.v
theories/Props/Tempo.v
theories/Spec/Text.v
theories/Spec/Sheet.v
theories/Spec/Decimal.v
theories/Spec/Console.v
theories/Spec/Tracker.v
theories/Spec/SongFile.v
theories/Proofs/TextProofs.v
theories/Proofs/GridProofs.v
theories/Proofs/SongProofs.v
theories/Proofs/DecimalProofs.v
theories/Proofs/CsvProofs.v
theories/Proofs/CsvProofs2.v
theories/Proofs/FractionProofs.v
theories/Proofs/CsvProofs3.v
theories/Proofs/FractionProofs2.v
theories/Proofs/OutputProofs.v
theories/Spec/JsonText.v
theories/Proofs/JsonProofs.v
theories/Proofs/HeapProofs.v
theories/Proofs/HeapProofs2.v
theories/Proofs/HeapProofs3.v
theories/Props/Song.v
theories/Props/Csv.v
theories/Props/Instruments.v
theories/Spec/Cli.v
theories/Spec/Objects.v
theories/Props/Cli.v
theories/Props/Heap.v
theories/Spec/View.v
theories/Spec/Api.v
theories/Spec/Pool.v
theories/Proofs/ViewProofs.v
theories/Proofs/DocumentProofs.v
theories/Proofs/ApiProofs.v
theories/Proofs/ApiProofs2.v
theories/Proofs/PoolProofs.v
theories/Props/Rewriting.v
theories/Props/Document.v
theories/Props/Output.v
theories/Props/Api.v
theories/Props/Library.v
theories/Spec/Whole.v
theories/Spec/Disk.v
theories/Props/Whole.v
theories/Model/CsvFile.v
theories/Props/CsvFile.v
theories/Props/Arguments.v
theories/Model/GzStream.v
theories/Proofs/GzProofs.v
theories/Props/SongText.v
theories/Props/Damaged.v
theories/Props/Conformance.v
theories/Model/Argparse.v
theories/Model/XmlText.v
theories/Spec/CommandLine.v
theories/Spec/XmlReader.v
theories/Spec/SongText.v
theories/Proofs/ArgProofs.v
theories/Proofs/ArgProofs2.v
theories/Proofs/XmlProofs.v
theories/Proofs/XmlProofs2.v
theories/Model/Zip.v
theories/Spec/ZipReader.v
theories/Spec/SongArchive.v
theories/Proofs/CrcProofs.v
theories/Proofs/ZipProofs.v
theories/Proofs/ZipProofs2.v
theories/Proofs/ZipProofs3.v
theories/Proofs/BatchProofs.v
theories/Model/MainBytes.v
theories/Model/Script.v
theories/Spec/ByteDisk.v
theories/Props/Archive.v
theories/Props/Bytes.v
theories/Props/Script.v
theories/Model/PyObjects.v
theories/Spec/Records.v
theories/Spec/Batch.v
theories/Spec/Failure.v
theories/Spec/Editing.v
theories/Spec/SheetTells.v
theories/Props/Objects.v
theories/Props/Notes.v
theories/Props/Batch.v
theories/Props/Failure.v
theories/Proofs/EditProofs.v
theories/Props/Editing.v
theories/Props/Telling.v
theories/Props/SheetTells.v
theories/Proofs/RhythmProofs.v
theories/Props/Rhythms.v
theories/Spec/SongClasses.v
theories/Spec/Score.v
theories/Spec/Logging.v
theories/Proofs/SongClassesProofs.v
theories/Spec/Tune.v
theories/Spec/ScoreSheet.v
theories/Proofs/ScoreProofs.v
theories/Proofs/LoggingProofs.v
theories/Props/SongClasses.v
theories/Props/Scores.v
theories/Props/Logs.v
theories/Props/Tunes.v
theories/Props/ScoreSheets.v
theories/Props/Shell.v
