(** Written by tools/gen_source.py: the text of source files of the repository. *)
From Coq Require Import String.
Local Open Scope string_scope.

(** src/objdump/parser.cpp *)
Definition objdump_parser_cpp : string := "#include ""parser.hpp""
#include ""../types/line.hpp""
#include ""../utils/jsonwriter.hpp""
#include ""../utils/regexwrappers.hpp""
#include ""../utils/utils.hpp""
#include <algorithm>
#include <clocale>
#include <ctre.hpp>
#include <istream>

void AsmParser::ObjDumpParserState::commonReset()
{
    this->currentLine = {};
    this->text.clear();
    this->hasPrefixingWhitespace = false;
    this->inComment = false;
    this->inAddress = true;
    this->inOpcodes = false;
    this->inLabel = false;
    this->inSectionStart = false;
    this->inSectionName = false;
    this->inSourceRef = false;
    this->skipRestOfTheLine = false;
    this->inRelocation = false;
    this->inSourceRefLineNumber = false;
}

AsmParser::ObjDumpParser::ObjDumpParser(const Filter &filter) : filter(filter)
{
    reproducible = false;
}

void AsmParser::ObjDumpParser::updateSourceRefLineNumber()
{
    auto lineNum = atoi(this->state.text.c_str());
    if (lineNum > 0)
    {
        this->state.currentSourceRef.line = lineNum;
    }
}

void AsmParser::ObjDumpParser::eol()
{
    this->total_lines++;

    if (this->state.inLabel)
    {
        this->label();
    }

    if (this->state.ignoreUntilNextLabel)
    {
        this->state.commonReset();
        return;
    }

    if (this->state.inSourceRefLineNumber)
    {
        this->updateSourceRefLineNumber();
    }
    else if (!this->state.text.empty())
    {
        this->state.currentLine.text = this->state.text;
        this->state.currentLine.section = this->state.currentSection;

        if (!this->state.currentLine.is_label)
        {
            this->state.currentLine.text = ' ' + this->state.currentLine.text;

            for (auto &label : this->state.currentLine.labels)
            {
                // cols start at 1, and we added a space, so add 2
                label.range.start_col += 2;
                label.range.end_col += 2;
            }
        }

        this->state.currentLine.source = this->state.currentSourceRef;

        if (lines.size() < 5000)
        {
            lines.push_back(this->state.currentLine);
        }
        else
        {
            asm_line truncated = {};
            truncated.text = ""[truncated; too many lines]"";
            lines.push_back(truncated);
            this->state.stopParsing = true;
        }
    }

    this->state.commonReset();
}

void AsmParser::ObjDumpParser::maybe_remove_last_function()
{
    if (!this->labels.empty())
    {
        auto previousFunc = this->labels.back();

        bool hasUserCode = false;

        for (size_t lineIdx = previousFunc.second - 1; lineIdx < this->lines.size(); lineIdx++)
        {
            auto line = this->lines[lineIdx];
            if (line.source.is_usercode)
            {
                hasUserCode = true;
                break;
            }
        }

        if (!hasUserCode)
        {
            this->lines.erase(this->lines.begin() + previousFunc.second - 1, this->lines.end());
            this->labels.pop_back();
        }
    }
}

void AsmParser::ObjDumpParser::label()
{
    if (this->state.text.empty())
    {
        this->state.inLabel = false;
        return;
    }

    auto label = AssemblyTextParserUtils::getLabelFromObjdumpLabel(this->state.text);
    if (label)
        this->state.text = label.value();

    if (this->filter.library_functions)
        this->maybe_remove_last_function();

    this->state.ignoreUntilNextLabel = AssemblyTextParserUtils::shouldIgnoreFunction(this->state.text, this->filter);
    if (this->state.ignoreUntilNextLabel)
        return;

    if (this->filter.library_functions)
        this->state.checkNextFileForLibraryCode = true;

    this->state.previousLabel = this->state.text;
    this->state.currentLine.label = this->state.text;

    this->state.text = this->state.text + "":"";
    this->state.currentLine.is_label = true;

    this->labels.push_back({ this->state.previousLabel, static_cast<int32_t>(lines.size() + 1) });
}

void AsmParser::ObjDumpParser::labelref()
{
    if (!this->state.ignoreUntilNextLabel)
    {
        this->state.currentLabelReference.range.end_col = static_cast<uint16_t>(ustrlen(this->state.text));
        try
        {
            this->state.currentLabelReference.name = this->state.text.substr(this->state.currentLabelReference.range.start_col);

            if (!AssemblyTextParserUtils::shouldIgnoreFunction(this->state.currentLabelReference.name, this->filter))
            {
                this->state.currentLine.labels.push_back(this->state.currentLabelReference);
            }
        }
        catch (...)
        {
            // ignore erroneous nonsense
            this->state.currentLabelReference.name = """";
        }
    }

    this->state.currentLabelReference = {};
}

void AsmParser::ObjDumpParser::opcodes()
{
    if (!this->state.ignoreUntilNextLabel)
    {
        std::string opcode{};
        for (auto c : this->state.text)
        {
            if (c != ' ')
            {
                opcode += c;
            }
            else
            {
                if (!opcode.empty())
                {
                    this->state.currentLine.opcodes.push_back(opcode);
                    opcode.clear();
                }
            }
        }
    }

    this->state.text.clear();
    this->state.inOpcodes = false;
}

void AsmParser::ObjDumpParser::actually_address()
{
    bool maybeNotHexAfterall = false;

    if (!this->state.ignoreUntilNextLabel)
    {
        int64_t addr = 0;
        int8_t bitsdone = 0;
        for (auto c = this->state.text.rbegin(); c != this->state.text.rend(); c++)
        {
            if (!is_hex(*c))
            {
                maybeNotHexAfterall = true;
                break;
            }

            auto hint = hex2int(*c);
            if (hint != 0)
            {
                // note: the if works for cases in 64 bit objdumps where label lines are formatted like this ""0000000000408000 <_init>:""
                //  because it most likely won't get to the last/first hex chunk this way.
                //  Otherwise makes gcc think it's gonna be bigger than a int64_t and complain about potential overflows.
                //  (or maybe some other bit of the code is wrong??)
                addr += hint << bitsdone;
            }
            bitsdone += 4;
        }

        this->state.currentLine.address = addr;
    }

    if (maybeNotHexAfterall)
    {
        // it might be a label that we can ignore because its noise..
        this->state.skipRestOfTheLine = true;
        this->state.inAddress = false;
    }
    else
    {
        this->state.inAddress = false;
        this->state.inOpcodes = true;
    }
}

void AsmParser::ObjDumpParser::undo_last_line_if_label()
{
    const auto lastLine = this->lines.back();
    if (lastLine.is_label)
    {
        std::erase_if(this->labels,
                      [lastLine](auto &label)
                      {
                          return label.first == lastLine.label;
                      });
        this->lines.pop_back();
    }
}

void AsmParser::ObjDumpParser::do_file_check(std::string_view filename)
{
    this->state.currentSourceRef.is_usercode = !this->lib_detection.file_in_library(filename);
}

void AsmParser::ObjDumpParser::actually_filename()
{
    this->state.currentFilename = this->state.text;
    this->state.inAddress = false;
    this->state.inOpcodes = false;
    this->state.skipRestOfTheLine = true;

    this->do_file_check(this->state.currentFilename);
}

void AsmParser::ObjDumpParser::address()
{
    if (!this->state.text.empty())
    {
        if (this->state.text[0] == '/')
        {
            // probably a filename
            this->actually_filename();
        }
        else
        {
            // usually it's an actual hex address
            this->actually_address();
        }
    }
    else
    {
        this->state.inAddress = false;
        this->state.inOpcodes = false;
    }

    this->state.text.clear();
}

void AsmParser::ObjDumpParser::setReproducible()
{
    this->reproducible = true;
}

void AsmParser::ObjDumpParser::fromStream(std::istream &in)
{
    char c;

    this->total_lines = 0;
    this->state.inAddress = true;
    while (!this->state.stopParsing && in.get(c))
    {
        if (c == '\r')
        {
            // skip cr (assuming there's going to be an lf)
        }
        else if (c == '\n')
        {
            this->eol();
            continue;
        }
        else if (!this->state.skipRestOfTheLine)
        {
            if (this->state.inAddress)
            {
                if (c == '/')
                {
                    // source reference
                    this->state.inAddress = false;
                    this->state.inSourceRef = true;
                }
                else if (c == ';')
                {
                    continue;
                }
                else if (c == ':')
                {
                    this->address();
                    continue;
                }
                else if (is_whitespace(c))
                {
                    if (this->state.text == ""Disassembly"")
                    {
                        this->state.inAddress = false;
                        this->state.inSectionStart = true;
                        this->state.currentSection.clear();
                    }
                    else if (!this->state.text.empty())
                    {
                        this->address();
                        this->state.inAddress = false;
                        this->state.inLabel = true;
                        continue;
                    }
                    else
                    {
                        // skip prefixing whitespace
                        continue;
                    }
                }
            }
            else if (this->state.inLabel)
            {
                // go on until eol
            }
            else if (this->state.inOpcodes)
            {
                if ((c == ' ') || (c == '\t'))
                {
                    if (this->state.text.empty())
                        continue;
                    if (this->state.text[this->state.text.length() - 1] == ' ')
                    {
                        this->opcodes();
                        continue;
                    }
                }
                else if (c == 'R')
                {
                    this->state.inRelocation = true;
                    this->state.inOpcodes = false;

                    this->state.text += ""   "";
                }
                else if (!is_hex(c))
                {
                    this->state.inOpcodes = false;
                }
            }
            else if (this->state.inRelocation)
            {
                // R_XXXXXX<tab>data for reloc
                // data can be symbol, symbol + addend, some value alone.
                // Simply change TAB to single space then take everything until EOL as data.
                if (c == '\t')
                {
                    this->state.text += ' ';
                    continue;
                }
            }
            else if (this->state.inSectionStart)
            {
                if (!this->state.inSectionName)
                {
                    this->state.inSectionName = (this->state.text == ""Disassembly of section "");
                    if (this->state.inSectionName)
                    {
                        this->state.text.clear();

                        this->state.currentSection.clear();
                        this->state.currentSection += c;
                        continue;
                    }
                }
                else
                {
                    if (c == ':')
                    {
                        this->state.skipRestOfTheLine = true;
                        this->state.text.clear();
                    }
                    else
                    {
                        this->state.currentSection += c;
                    }
                    continue;
                }
            }
            else if (this->state.inSourceRef)
            {
                if (c == ':')
                {
                    this->state.currentSourceRef = asm_source{ .file = this->state.text, .line = 0, .column = 0 };
                    this->state.currentFilename = this->state.currentSourceRef.file;
                    this->state.text.clear();
                    this->do_file_check(this->state.currentSourceRef.file);
                    this->state.inSourceRef = true;
                    this->state.inSourceRefLineNumber = true;
                    continue;
                }
                else if (this->state.inSourceRefLineNumber && is_whitespace(c))
                {
                    this->updateSourceRefLineNumber();
                    this->state.text.clear();
                    this->state.skipRestOfTheLine = true;
                    continue;
                }
            }
            else if (!this->state.inComment)
            {
                if (c == '#')
                {
                    this->state.inComment = true;
                }
                else if (c == '<')
                {
                    this->state.inSomethingWithALabel = true;
                    this->state.currentLabelReference.range =
                    asm_range{ .start_col = static_cast<uint16_t>(ustrlen(this->state.text) + 1),
                               .end_col = static_cast<uint16_t>(0) };
                }
                else if (this->state.inSomethingWithALabel)
                {
                    if (c == '>')
                    {
                        this->state.inSomethingWithALabel = false;
                        if (this->state.currentLabelReference.name.empty())
                        {
                            this->labelref();
                        }
                    }
                    else if (c == '+')
                    {
                        this->state.inSomethingWithALabel = false;
                        this->labelref();
                    }
                }
            }

            if (is_whitespace(c) && this->state.text.empty())
                continue;
            this->state.text += c;
        }
    }
}

void AsmParser::ObjDumpParser::outputJson(std::ostream &out) const
{
    std::vector<std::unique_ptr<asm_line_v>> linesv;
    linesv.reserve(this->lines.size());
    for (auto &line : this->lines)
    {
        linesv.push_back(std::make_unique<asm_line_v>(line));
    }

    std::vector<asm_labelpair> labelsv;
    labelsv.reserve(this->labels.size());
    for (auto &label : this->labels)
    {
        labelsv.push_back(asm_labelpair{ std::string_view{ label.first.begin(), label.first.end() }, label.second });
    }

    JsonWriter writer(out, linesv, labelsv, this->filter, this->total_lines);
    if (this->reproducible)
        writer.setReproducible();
    writer.write();
}

void AsmParser::ObjDumpParser::outputDebugJson(std::ostream &out) const
{
    out << ""Not implemented""
        << ""\n"";
    throw std::runtime_error(""Not implemented"");
}

void AsmParser::ObjDumpParser::outputText(std::ostream &out) const
{
    for (const auto &line : this->lines)
    {
        out << line.text << ""\n"";
    }
}
".
(** src/objdump/parser.hpp *)
Definition objdump_parser_hpp : string := "#pragma once

#include ""../types/filter.hpp""
#include ""../types/line.hpp""
#include ""../types/parser.hpp""
#include ""../utils/library_detection.hpp""
#include <iosfwd>
#include <string_view>
#include <unordered_map>

namespace AsmParser
{

class ObjDumpParserState
{
    public:
    bool inComment{};
    bool inSomethingWithALabel{};
    bool hasPrefixingWhitespace{};
    bool inAddress{};
    bool inLabel{};
    bool inOpcodes{};
    bool inSectionStart{};
    bool inSectionName{};
    bool inSourceRef{};
    bool inSourceRefLineNumber{};
    bool inRelocation{};
    bool skipRestOfTheLine{};
    bool stopParsing{};
    bool ignoreUntilNextLabel{};
    bool checkNextFileForLibraryCode{};

    asm_label currentLabelReference{};
    asm_source currentSourceRef{};
    std::string previousLabel;
    std::string text;
    std::string currentFilename;
    std::string currentSection;
    asm_line currentLine{};

    void commonReset();
};

class ObjDumpParser : public IParser
{
    private:
    const Filter filter;
    ObjDumpParserState state{};
    LibraryDetection lib_detection;
    std::vector<asm_line> lines;
    std::vector<asm_labelpair_t> labels;

    bool reproducible;

    size_t total_lines{};

    // todo: bad names
    void actually_address();
    void actually_filename();
    void do_file_check(std::string_view filename);
    void undo_last_line_if_label();
    void maybe_remove_last_function();
    void updateSourceRefLineNumber();
    bool shouldIgnoreFunction(std::string_view name) const;
    void eol();
    void address();
    void opcodes();
    void label();
    void labelref();

    public:
    explicit ObjDumpParser(const Filter &filter);

    void setReproducible() override;

    void fromStream(std::istream &in) override;

    void outputJson(std::ostream &out) const override;
    void outputText(std::ostream &out) const override;

    void outputDebugJson(std::ostream &out) const override;
};

} // namespace AsmParser
".
(** src/assembly/parser.cpp *)
Definition assembly_parser_cpp : string := "#include ""parser.hpp""
#include ""../utils/jsonwriter.hpp""
#include ""../utils/regexwrappers.hpp""
#include ""../utils/utils.hpp""

#include <algorithm>
#include <cstdlib>
#include <istream>

AsmParser::AssemblyTextParser::AssemblyTextParser(const Filter filter) : filter(filter)
{
    this->reproducible = false;
}

void AsmParser::AssemblyTextParser::setReproducible()
{
    this->reproducible = true;
}

bool str_contains(const std::string_view s, char c)
{
    auto found = s.find(c);

    return (found != std::string::npos);
}

bool AsmParser::AssemblyTextParser::handleStabs(const std::string_view line)
{
    const auto stabs_opt = AssemblyTextParserUtils::getSourceInfoFromStabs(line);
    if (stabs_opt)
    {
        const auto [type, iline] = stabs_opt.value();

        // cf http://www.math.utah.edu/docs/info/stabs_11.html#SEC48
        if (type == 68)
        {
            this->state.currentSourceRef =
            asm_source_v{ .file = {}, .file_idx = 0, .line = iline, .column = 0, .is_end = false, .is_usercode = false, .inside_proc = false };
        }
        else if (type == 100 || type == 132)
        {
            this->state.currentSourceRef = {};
            this->state.previousLabel = {};
        }

        return true;
    }

    return false;
}

bool AsmParser::AssemblyTextParser::handleFiledef(const std::string_view line)
{
    const auto opt_file_def = AssemblyTextParserUtils::getFileDef(line);
    if (opt_file_def)
    {
        const auto file_def = opt_file_def.value();
        files[file_def.file_index] = file_def.file_name;

        return true;
    }

    return false;
}

bool AsmParser::AssemblyTextParser::handleSource(const std::string_view line)
{
    const auto [file_index, line_index, column] = AssemblyTextParserUtils::getSourceRef(line);
    if (file_index != 0)
    {
        this->state.hasProcMarkers = true;

        this->state.currentSourceRef.file_idx = file_index;

        this->state.currentSourceRef.line = line_index;
        this->state.currentSourceRef.column = column;
        this->state.currentSourceRef.inside_proc = true;

        this->amendPreviousLinesWith(this->state.currentSourceRef);
        return true;
    }

    return false;
}

std::optional<std::string_view> AsmParser::AssemblyTextParser::getLabelFromLine(const std::string_view line)
{
    auto match_label = AssemblyTextParserUtils::getLabel(line);
    if (match_label)
    {
        return match_label;
    }

    auto match_label_assign = AssemblyTextParserUtils::getLabelAssignment(line);
    if (match_label_assign)
    {
        this->state.currentLine->is_assignment = true;
        return match_label_assign;
    }

    auto match_assign = AssemblyTextParserUtils::getAssignmentDef(line);
    if (match_assign)
    {
        this->state.currentLine->is_assignment = true;
        return match_assign;
    }

    auto match_cuda = AssemblyTextParserUtils::getCudaLabel(line);
    if (match_cuda)
    {
        this->state.inNvccDef = true;
        this->state.inNvccCode = true;
        return match_cuda;
    }

    return std::nullopt;
}

void AsmParser::AssemblyTextParser::maybeAddBlank()
{
    bool lastBlank = lines.size() == 0 || lines[lines.size() - 1]->text.empty();
    if (!lastBlank)
        lines.emplace_back(std::make_unique<asm_line_v>());
}

bool AsmParser::AssemblyTextParser::isEmptyOrJustWhitespace(const std::string_view line) const
{
    if (line.empty())
        return true;

    for (auto c : line)
    {
        if (!is_whitespace(c))
            return false;
    }

    return true;
}

bool AsmParser::AssemblyTextParser::handleD2(const std::string_view line)
{
    const auto match_line = AssemblyTextParserUtils::getD2LineInfo(line);
    if (match_line)
    {
        const auto line_source = match_line.value();

        const auto match_stdin = AssemblyTextParserUtils::isExampleOrStdin(this->state.currentSourceFile);
        this->state.currentSourceRef = asm_source_v{ .file = this->state.currentSourceFile,
                                                     .file_idx = 0,
                                                     .line = line_source.line,
                                                     .column = 0,
                                                     .is_end = false,
                                                     .is_usercode = match_stdin,
                                                     .inside_proc = false };

        this->amendPreviousLinesWith(this->state.currentSourceRef);
        return true;
    }
    else
    {
        const auto match_file = AssemblyTextParserUtils::getD2FileInfo(line);
        if (match_file)
        {
            const auto file_source = match_file.value();
            this->state.currentSourceFile = file_source.file;
            return true;
        }
    }

    return false;
}

bool AsmParser::AssemblyTextParser::handle6502(const std::string_view line)
{
    const auto match = AssemblyTextParserUtils::get6502DbgInfo(line);
    if (match)
    {
        const auto source = match.value();
        if (!source.is_end)
            this->state.currentSourceRef = asm_source_v{
                .file = source.file, .file_idx = 0, .line = source.line, .column = 0, .is_end = false, .is_usercode = false, .inside_proc = false
            };

        return true;
    }

    return false;
}

bool AsmParser::AssemblyTextParser::handleSection(const std::string_view line)
{
    const auto match = AssemblyTextParserUtils::getSectionNameDef(line);
    if (match)
    {
        this->state.currentSection = match.value();
        return true;
    }

    return false;
}

void AsmParser::AssemblyTextParser::extractUsedLabelsFromDirective(const std::string_view line)
{
    const auto weakDef = AssemblyTextParserUtils::getWeakDefinedLabel(line);
    if (weakDef)
    {
        this->used_labels[weakDef.value()].insert(this->state.previousLabel);
    }
    else
    {
        const auto globalDef = AssemblyTextParserUtils::getGlobalDefinedLabel(line);
        if (globalDef)
        {
            this->usercode_labels.insert(globalDef.value());
            this->used_labels[globalDef.value()].insert(this->state.previousLabel);
        }
    }
}

void AsmParser::AssemblyTextParser::extractUsedLabelsFromOpcodeLine(const std::string_view line)
{
    this->state.currentLine->labels = AssemblyTextParserUtils::getUsedLabelsInLine(line);

    for (auto &label_ref : this->state.currentLine->labels)
    {
        if (label_ref.name != this->state.previousParentLabel)
            this->used_labels[label_ref.name].insert(this->state.previousParentLabel);
    }
}

void AsmParser::AssemblyTextParser::extractUsedLabelsFromDataLine(const std::string_view line)
{
    this->state.currentLine->labels = AssemblyTextParserUtils::getUsedLabelsInLine(line);

    for (auto &label_ref : this->state.currentLine->labels)
    {
        this->data_used_labels[label_ref.name].insert(this->state.previousLabel);

        if (this->state.currentSourceRef.inside_proc)
        {
            this->data_used_labels[label_ref.name].insert(this->state.previousParentLabel);
        }
    }
}

void AsmParser::AssemblyTextParser::handleLabelAliasing()
{
    if (!this->state.previousLabelOnSameAddress.empty())
    {
        if (!this->state.currentLine->is_assignment)
        {
            if (this->state.currentLine->is_label)
            {
                this->aliased_labels[this->state.currentLine->label] = this->state.previousLabelOnSameAddress;
            }
            else if (this->state.currentLine->has_opcode || this->state.currentLine->is_data)
            {
                this->state.previousLabelOnSameAddress = {};
            }
        }
        else
        {
            this->state.previousLabelOnSameAddress = {};
        }
    }

    if (this->state.currentLine->is_label && !this->state.currentLine->is_assignment)
    {
        this->state.previousLabelOnSameAddress = this->state.currentLine->label;
    }
}

void AsmParser::AssemblyTextParser::handleLabelDefinition(const std::string_view line)
{
    const auto found_label = this->getLabelFromLine(line);
    if (found_label)
    {
        this->state.currentLine->label = found_label.value();
        this->state.currentLine->is_label = true;
        this->state.currentLine->is_internal_label = this->isInternalLabel(this->state.currentLine->label);

        this->state.previousLabel = this->state.currentLine->label;
        this->labels_defined[this->state.currentLine->label] = static_cast<int32_t>(lines.size() + 1);

        if (!this->state.currentLine->is_internal_label)
        {
            this->state.previousParentLabel = this->state.currentLine->label;
        }
    }
    else
    {
        this->state.currentLine->is_label = false;
        this->state.currentLine->is_internal_label = false;
    }
}

void AsmParser::AssemblyTextParser::eol()
{
    this->total_lines++;
    this->state.currentLine = std::make_unique<asm_line_v>();

    // if (this->lines.size() == 5000)
    // {
    //     asm_line truncated = {};
    //     truncated.text = ""[truncated; too many lines]"";
    //     this->lines.push_back(truncated);
    //     this->state.stopParsing = true;
    //     return;
    // }

    const std::string_view line = this->state.text;

    if (this->filter.comment_only)
    {
        bool removeThisLine = false;

        if (!this->state.hasStartedCommentBlock)
        {
            this->state.hasStartedCommentBlock = AssemblyTextParserUtils::startCommentBlock(line);
        }

        if (this->state.hasStartedCommentBlock)
        {
            removeThisLine = true;
            this->state.hasStartedCommentBlock = !AssemblyTextParserUtils::endCommentBlock(line);
        }

        if (removeThisLine)
        {
            this->state.text.clear();
            return;
        }
    }

    if (isEmptyOrJustWhitespace(line))
    {
        maybeAddBlank();
        return;
    }

    if (AssemblyTextParserUtils::startAppBlock(line) || AssemblyTextParserUtils::startAsmNesting(line))
    {
        this->state.inCustomAssembly++;
    }
    else if (AssemblyTextParserUtils::endAppBlock(line) || AssemblyTextParserUtils::endAsmNesting(line))
    {
        this->state.inCustomAssembly--;
    }

    {
        std::string filteredLine{ line };

        if (this->state.inCustomAssembly > 0)
        {
            filteredLine = AssemblyTextParserUtils::fixLabelIndentation(filteredLine);
        }

        filteredLine = AssemblyTextParserUtils::expandTabs(filteredLine);
        if (this->filter.whitespace)
        {
            filteredLine = AssemblyTextParserUtils::squashHorizontalWhitespaceWithQuotes(filteredLine, true);
        }

        this->state.currentLine->text = std::move(filteredLine);
    }

    if (AssemblyTextParserUtils::startProcBlock(this->state.currentLine->text) && this->state.currentSourceRef.line == 0)
    {
        this->markPreviousInternalLabelAsInsideProc();
        if (this->filter.directives)
        {
            this->state.text.clear();
            return;
        }
    }

    bool handledSourceDirective = false;

    if (AssemblyTextParserUtils::endBlock(this->state.currentLine->text) ||
        (this->state.inNvccCode && str_contains(this->state.currentLine->text, '}')))
    {
        this->state.currentSourceRef = {};
        this->state.previousLabel = {};
        this->state.lastOwnSource = {};
    }
    else
    {
        handledSourceDirective = this->handleFiledef(this->state.currentLine->text);
        if (!handledSourceDirective)
            handledSourceDirective = this->handleSource(this->state.currentLine->text);
        if (!handledSourceDirective)
            handledSourceDirective = this->handleStabs(this->state.currentLine->text);
        if (!handledSourceDirective)
            handledSourceDirective = this->handle6502(this->state.currentLine->text);
        if (!handledSourceDirective)
            handledSourceDirective = this->handleD2(this->state.currentLine->text);
    }

    if (!handledSourceDirective)
        this->handleSection(this->state.currentLine->text);

    if (this->filter.library_functions && !this->state.lastOwnSource.line && this->state.currentFilename.empty())
    {
        if (this->state.mayRemovePreviousLabel && this->lines.size() > 0)
        {
            if (this->lines[this->lines.size() - 1]->text.empty())
            {
                this->state.keepInlineCode = true;
            }
            else
            {
                if (this->lines[this->lines.size() - 1]->is_label)
                {
                    this->lines.pop_back();
                    this->state.keepInlineCode = false;
                    // todo: delete labelDefinitions[labelDef[1]];
                }
                else
                {
                    this->state.keepInlineCode = true;
                }
            }

            this->state.mayRemovePreviousLabel = false;
        }

        if (!this->state.keepInlineCode)
        {
            this->state.text.clear();
            return;
        };
    }
    else
    {
        this->state.mayRemovePreviousLabel = true;
    }


    if (this->filter.comment_only && ((AssemblyTextParserUtils::isJustComments(line) && !this->state.inNvccCode) ||
                                      (AssemblyTextParserUtils::isJustNvccComments(line) && this->state.inNvccCode)))
    {
        this->state.text.clear();
        return;
    }

    if (handledSourceDirective)
    {
        this->state.currentLine->is_data = false;
        this->state.currentLine->is_directive = true;
        this->state.currentLine->is_label = false;
        this->state.currentLine->is_internal_label = false;
    }
    else
    {
        this->handleLabelDefinition(this->state.currentLine->text);

        this->state.currentLine->is_data = AssemblyTextParserUtils::isDataDefn(this->state.currentLine->text);
        this->state.currentLine->is_directive = false;
    }

    if (this->state.inNvccDef)
    {
        if (AssemblyTextParserUtils::isCudaEndDef(this->state.currentLine->text))
            this->state.inNvccDef = false;
    }
    else if (!this->state.currentLine->is_label && !this->state.currentLine->is_data)
    {
        if (!handledSourceDirective)
        {
            this->state.currentLine->is_directive = AssemblyTextParserUtils::isDirective(this->state.currentLine->text);
        }

        // .inst generates an opcode, so does not count as a directive
        if (this->state.currentLine->is_directive && !AssemblyTextParserUtils::isInstOpcode(this->state.currentLine->text))
        {
            this->extractUsedLabelsFromDirective(this->state.currentLine->text);

            if (this->filter.directives)
            {
                this->state.filteredlines.push_back(std::move(this->state.currentLine));
                this->state.text.clear();
                return;
            }
        }
    }

    this->state.currentLine->is_inline_asm = (this->state.inCustomAssembly > 0);

    this->state.currentLine->has_opcode = AssemblyTextParserUtils::hasOpcode(this->state.currentLine->text, this->state.inNvccCode);

    this->state.currentLine->labels.clear();
    if (!this->state.currentLine->is_label && this->state.currentLine->has_opcode)
    {
        this->extractUsedLabelsFromOpcodeLine(this->state.currentLine->text);
    }

    if (!this->state.currentLine->is_label && this->state.currentLine->is_data)
    {
        this->extractUsedLabelsFromDataLine(this->state.currentLine->text);
    }

    if (this->state.currentLine->is_assignment || (this->state.currentLine->label == this->state.previousParentLabel))
    {
        this->state.currentLine->closest_parent_label.clear();
    }
    else
    {
        this->state.currentLine->closest_parent_label = this->state.previousParentLabel;
    }

    this->state.currentLine->source = this->state.currentSourceRef;
    this->state.currentLine->section = this->state.currentSection;

    this->handleLabelAliasing();

    this->lines.push_back(std::move(this->state.currentLine));

    this->state.text.clear();
}

bool AsmParser::AssemblyTextParser::isInternalLabel(const std::string_view label) const
{
    return label.starts_with(""."") || label.starts_with(""$"") || label.starts_with(""L"");
}

void AsmParser::AssemblyTextParser::amendPreviousLinesWith(const asm_source_v &source)
{
    for (auto it = this->lines.rbegin(); it != this->lines.rend(); it++)
    {
        auto &line = *it;
        if (line->is_label)
        {
            line->source = asm_source_v{ .file = source.file,
                                         .file_idx = source.file_idx,
                                         .line = source.line,
                                         .column = source.column,
                                         .is_end = false,
                                         .is_usercode = source.is_usercode && !line->is_internal_label,
                                         .inside_proc = source.inside_proc };
            if (!line->is_internal_label)
            {
                break;
            }
        }
        else
        {
            break;
        }
    }
}

void AsmParser::AssemblyTextParser::markPreviousInternalLabelAsInsideProc()
{
    for (auto it = this->lines.rbegin(); it != this->lines.rend(); it++)
    {
        auto &line = *it;
        if (line->is_label)
        {
            if (line->is_internal_label)
            {
                line->source.inside_proc = true;
            }
            break;
        }
        else
        {
            break;
        }
    }
}

void AsmParser::AssemblyTextParser::filterOutReferedLabelsThatArentDefined(asm_line_v *line)
{
    for (auto it = line->labels.begin(); it != line->labels.end();)
    {
        const auto label = *it;
        if (!this->labels_defined.contains(label.name))
        {
            it = line->labels.erase(it);
        }
        else
        {
            ++it;
        }
    }
}

bool AsmParser::AssemblyTextParser::isUsedThroughAlias(const std::string_view label) const
{
    const auto aliasfind = this->aliased_labels.find(label);
    if (aliasfind != this->aliased_labels.end())
    {
        return this->isUsed(aliasfind->second, 1);
    }

    return false;
}

bool AsmParser::AssemblyTextParser::isUsed(const std::string_view label, const int depth) const
{
    static thread_local std::unordered_set<std::string_view> visited;
    if (depth == 0) {
        visited.clear(); 
    }

    // Try to detect cycles here. Without this code we will have an infinite recursion problem in some cases.
    if (visited.count(label)) {
        return false;
    }
    visited.insert(label);

    if (this->usercode_labels.contains(label))
        return true;

    const auto usedfind = this->used_labels.find(label);
    if (usedfind != this->used_labels.end())
    {
        for (auto &ref : usedfind->second)
        {
            if (ref.empty())
                return true;

            const auto used = this->isUsed(ref, depth + 1);
            if (used)
                return true;
        }
    }

    if (depth > 0)
    {
        const auto weakfind = this->weakly_used_labels.find(label);
        if (weakfind != this->weakly_used_labels.end())
        {
            for (auto &ref : weakfind->second)
            {
                const auto used = this->isUsed(ref, depth - 1);
                if (used)
                    return true;
            }
        }

        const auto datafind = this->data_used_labels.find(label);
        if (datafind != this->data_used_labels.end())
        {
            for (auto &ref : datafind->second)
            {
                const auto used = this->isUsed(ref, depth - 1);
                if (used)
                    return true;
            }
        }
    }

    visited.erase(label);
    return false;
}

bool AsmParser::AssemblyTextParser::isDataUsedThroughAlias(const std::string_view label) const
{
    const auto weakfind = this->data_used_labels.find(label);
    if (weakfind != this->data_used_labels.end())
    {
        for (auto &ref : weakfind->second)
        {
            const auto used = this->isUsedThroughAlias(ref);
            if (used)
                return true;
        }
    }

    return false;
}

void AsmParser::AssemblyTextParser::filterNonLabels()
{
    std::erase_if(this->used_labels,
                  [this](auto &label)
                  {
                      return !this->labels_defined.contains(label.first);
                  });

    std::erase_if(this->weakly_used_labels,
                  [this](auto &label)
                  {
                      return !this->labels_defined.contains(label.first);
                  });
}

void AsmParser::AssemblyTextParser::markLabelUsage()
{
    for (auto &label : this->labels_defined)
    {
        auto &line = this->lines[label.second - 1];
        if (this->isUsed(line->label, 1))
        {
            line->is_used = true;
        }
        else if (this->isDataUsedThroughAlias(line->label))
        {
            line->is_used_data_through_alias = true;
        }
        else if (this->isUsedThroughAlias(line->label))
        {
            line->is_used_through_alias = true;
        }
    }
}

void AsmParser::AssemblyTextParser::removeUnused()
{
    bool remove = false;
    bool removeOnlyThis = false;
    bool isUsed = false;
    bool isUsedThroughAlias = false;
    bool isDataUsedThroughAlias = false;

    for (auto it = this->lines.begin(); it != this->lines.end();)
    {
        auto &line = *it;
        removeOnlyThis = false;

        if (line->is_label)
        {
            isUsed = line->is_used;
            isUsedThroughAlias = line->is_used_through_alias;
            isDataUsedThroughAlias = line->is_used_data_through_alias;

            if (this->filter.unused_labels)
            {
                if (remove && isUsed)
                {
                    remove = false;
                }
                else if (!remove && !isUsed)
                {
                    if (isUsedThroughAlias)
                    {
                        removeOnlyThis = true;
                    }
                    else if (isDataUsedThroughAlias)
                    {
                    }
                    else
                    {
                        if (line->is_internal_label)
                        {
                            removeOnlyThis = true;
                        }
                        else if (line->is_inline_asm)
                        {
                            removeOnlyThis = true;
                        }
                        else if (!line->closest_parent_label.empty())
                        {
                            remove = !this->used_labels.contains(line->closest_parent_label);
                            removeOnlyThis = !remove && line->is_internal_label;
                        }
                        else
                        {
                            remove = true;
                        }
                    }
                }
            }
        }

        if (remove || removeOnlyThis ||
            (!isUsed && !isUsedThroughAlias && !isDataUsedThroughAlias && this->filter.compatmode &&
             this->filter.directives && line->is_data && !line->source.inside_proc))
        {
            // filter this out
            this->state.filteredlines.push_back(std::move(line));
            it = this->lines.erase(it);
        }
        else
        {
            this->filterOutReferedLabelsThatArentDefined(line.get());

            if (line->source.file_idx != 0)
            {
                try
                {
                    const auto &file = files.at(line->source.file_idx);

                    const auto match_stdin = AssemblyTextParserUtils::isExampleOrStdin(file);
                    if (match_stdin)
                    {
                        line->source.is_usercode = true;
                        line->source.file = file;
                    }
                    else
                    {
                        line->source.file = file;
                    }
                }
                catch (...)
                {
                    line->source = {};
                }
            }

            ++it;
        }
    }
}

void AsmParser::AssemblyTextParser::fromStream(std::istream &in)
{
    char c;

    this->total_lines = 0;
    this->state.text.reserve(1024);

    while (!this->state.stopParsing && in.get(c))
    {
        if (c == 13)
        {
            // skip cr (assuming there's going to be an lf)
        }
        else if (c == 10)
        {
            this->eol();
            continue;
        }

        this->state.text += c;
    }

    if (!this->state.text.empty())
    {
        // if last line wasn't terminated; still parse
        this->eol();
    }

    this->filterNonLabels();
    this->markLabelUsage();
    this->removeUnused();
}

std::vector<AsmParser::asm_labelpair> AsmParser::AssemblyTextParser::redetermineLabels() const
{
    std::vector<AsmParser::asm_labelpair> labels;
    labels.reserve(this->lines.size());

    int line_number = 1;
    for (auto &line : this->lines)
    {
        if (line->is_label)
        {
            labels.emplace_back(asm_labelpair{ line->label, line_number });
        }

        line_number++;
    }

    return labels;
}

void AsmParser::AssemblyTextParser::outputDebugJson(std::ostream &out) const
{
    const std::vector<asm_labelpair> labels = this->redetermineLabels();

    DebugJsonWriter writer(out, this->lines, labels, this->filter, this->used_labels, this->weakly_used_labels,
                           this->aliased_labels, this->data_used_labels, this->total_lines);
    writer.write();
}

void AsmParser::AssemblyTextParser::outputJson(std::ostream &out) const
{
    const std::vector<asm_labelpair> labels = this->redetermineLabels();

    JsonWriter writer(out, this->lines, labels, this->filter, this->total_lines);
    writer.write();
}

void AsmParser::AssemblyTextParser::outputText(std::ostream &out) const
{
    for (auto &line : this->lines)
    {
        out << line->text << ""\n"";
    }
}
".
(** src/assembly/parser.hpp *)
Definition assembly_parser_hpp : string := "#pragma once

#include ""../types/filter.hpp""
#include ""../types/line.hpp""
#include ""../types/parser.hpp""
#include <iosfwd>
#include <memory>
#include <optional>
#include <string_view>
#include <unordered_map>
#include <unordered_set>

namespace AsmParser
{

class AssemblyTextParserState
{
    public:
    bool stopParsing{};
    bool hasProcMarkers{};
    bool hasStartedCommentBlock{};

    bool mayRemovePreviousLabel{ true };
    bool keepInlineCode{};
    asm_source_v lastOwnSource{};

    bool inNvccDef{};
    bool inNvccCode{};
    int inCustomAssembly{ 0 };

    asm_label_v currentLabelReference{};
    asm_source_v currentSourceRef{};
    std::string_view previousLabel;
    std::string_view previousParentLabel;
    std::string_view previousLabelOnSameAddress;
    std::string text;
    std::string_view currentFilename;
    std::string_view currentSection;
    std::string_view currentSourceFile;
    std::unique_ptr<asm_line_v> currentLine;

    std::vector<std::unique_ptr<asm_line_v>> filteredlines;
};

class AssemblyTextParser : public IParser
{
    private:
    const Filter filter;
    AssemblyTextParserState state{};

    std::unordered_map<int, std::string> files;
    std::vector<std::unique_ptr<asm_line_v>> lines;
    std::unordered_map<std::string_view, int32_t> labels_defined;
    std::unordered_set<std::string_view> usercode_labels;
    std::unordered_map<std::string_view, std::unordered_set<std::string_view>> used_labels;
    std::unordered_map<std::string_view, std::unordered_set<std::string_view>> data_used_labels;
    std::unordered_map<std::string_view, std::unordered_set<std::string_view>> weakly_used_labels;
    std::unordered_map<std::string_view, std::string_view> aliased_labels;

    bool reproducible;

    size_t total_lines{};

    bool label_is_defined(const std::string_view s) const;
    std::optional<std::string_view> getLabelFromLine(const std::string_view line);

    bool handleStabs(const std::string_view line);
    bool handleSource(const std::string_view line);
    bool handleFiledef(const std::string_view line);
    bool handle6502(const std::string_view line);
    bool handleD2(const std::string_view line);
    bool handleSection(const std::string_view line);

    void eol();

    bool isInternalLabel(const std::string_view label) const;
    bool isEmptyOrJustWhitespace(const std::string_view line) const;
    void maybeAddBlank();
    void amendPreviousLinesWith(const asm_source_v &source);
    void markPreviousInternalLabelAsInsideProc();
    bool isUsedThroughAlias(const std::string_view label) const;
    bool isDataUsedThroughAlias(const std::string_view label) const;
    bool isUsed(const std::string_view label, const int depth) const;

    void filterNonLabels();
    void markLabelUsage();
    void filterOutReferedLabelsThatArentDefined(asm_line_v *line);
    void removeUnused();

    void extractUsedLabelsFromDirective(const std::string_view line);
    void extractUsedLabelsFromOpcodeLine(const std::string_view line);
    void extractUsedLabelsFromDataLine(const std::string_view line);
    void handleLabelAliasing();
    void handleLabelDefinition(const std::string_view line);

    std::vector<asm_labelpair> redetermineLabels() const;

    public:
    AssemblyTextParser(const Filter filter);

    void setReproducible() override;

    void fromStream(std::istream &in) override;

    void outputJson(std::ostream &out) const override;
    void outputText(std::ostream &out) const override;

    void outputDebugJson(std::ostream &out) const override;
};

} // namespace AsmParser
".
(** src/types/line.hpp *)
Definition types_line_hpp : string := "#pragma once

#include <cstdint>
#include <optional>
#include <string>
#include <vector>

namespace AsmParser
{

// trivially copyable

struct asm_stabn
{
    int type;
    int line;
};

struct asm_range
{
    uint16_t start_col{};
    uint16_t end_col{};
};

struct asm_link
{
    int32_t offset;
    int32_t length;
    int32_t to;
};

// non-trivial

struct asm_label
{
    std::string name;
    asm_range range{};
};

struct asm_label_v
{
    std::string_view name;
    asm_range range{};
};

struct asm_source
{
    std::string file;
    int32_t file_idx{ 0 };
    int32_t line{ 0 };
    int32_t column;
    bool is_usercode{};
    bool inside_proc{};
};

struct asm_source_v
{
    std::string_view file;
    int32_t file_idx;
    int32_t line;
    int32_t column;
    bool is_end;
    bool is_usercode;
    bool inside_proc;
};

struct asm_source_f
{
    std::string_view file;
};

struct asm_source_l
{
    int32_t line{ 0 };
};

struct asm_file_def
{
    int file_index;
    std::string file_name;
};

struct asm_labelpair
{
    std::string_view first;
    int32_t second;
};

struct asm_labelpair_t
{
    std::string first;
    int32_t second;
};

struct asm_line
{
    std::string text;
    std::string section;
    std::vector<asm_label> labels;
    std::vector<std::string> opcodes;
    std::string closest_parent_label;
    bool is_label{};
    bool is_internal_label{};
    std::string label;
    asm_source source;
    std::optional<int64_t> address;
    bool is_used{};
    bool is_used_through_alias{};
    bool is_used_data_through_alias{};
    bool is_data{};
    bool is_inline_asm{};
    bool has_opcode{};
    bool is_directive{};
    bool is_assignment{};
};

class asm_line_v
{
    public:
    std::string text;
    std::string_view section;
    std::vector<asm_label_v> labels;
    std::vector<std::string> opcodes;
    std::string closest_parent_label;
    bool is_label{};
    bool is_internal_label{};
    std::string_view label;
    asm_source_v source;
    std::optional<int64_t> address;
    bool is_used{};
    bool is_used_through_alias{};
    bool is_used_data_through_alias{};
    bool is_data{};
    bool is_inline_asm{};
    bool has_opcode{};
    bool is_directive{};
    bool is_assignment{};

    asm_line_v() = default;
    asm_line_v(const asm_line &line)
    {
        this->text = line.text;
        this->section = line.section;

        this->labels.reserve(line.labels.size());
        for (auto &label : line.labels)
        {
            this->labels.push_back(asm_label_v{ .name = std::string_view(label.name), .range = label.range });
        }

        this->opcodes = line.opcodes;
        this->closest_parent_label = line.closest_parent_label;
        this->is_label = line.is_label;
        this->is_internal_label = line.is_internal_label;
        this->label = line.label;
        this->source = asm_source_v{ .file = line.source.file,
                                     .file_idx = line.source.file_idx,
                                     .line = line.source.line,
                                     .column = line.source.column,
                                     .is_end = false,
                                     .is_usercode = line.source.is_usercode,
                                     .inside_proc = line.source.inside_proc };
        this->address = line.address;
        this->is_used = line.is_used;
        this->is_used_through_alias = line.is_used_through_alias;
        this->is_used_data_through_alias = line.is_used_through_alias;
        this->is_data = line.is_data;
        this->is_inline_asm = line.is_inline_asm;
        this->has_opcode = line.has_opcode;
        this->is_directive = line.is_directive;
        this->is_assignment = line.is_assignment;
    }
};

} // namespace AsmParser
".
(** src/types/filter.hpp *)
Definition types_filter_hpp : string := "#pragma once

namespace AsmParser
{

struct Filter
{
    bool binary{};
    bool unused_labels{};
    bool library_functions{};
    bool directives{};
    bool comment_only{};
    bool whitespace{};
    bool plt{};

    bool dont_mask_filenames{};
    bool compatmode{};

    bool code_only{};
};

} // namespace AsmParser".
(** src/utils/utils.cpp *)
Definition utils_utils_cpp : string := "#include ""utils.hpp""
#include <chrono>

bool AsmParser::is_hex(const char c)
{
    return (c >= 'a' && c <= 'f') || (c >= '0' && c <= '9');
}

int8_t AsmParser::hex2int(const char c)
{
    if (c >= '0' && c <= '9')
    {
        return c - '0';
    }
    else
    {
        return static_cast<int8_t>(10 + (c - 'a'));
    }
}

size_t AsmParser::ustrlen(const std::string_view s)
{
    const char *cstrptr = s.data();

    mblen(nullptr, 0);

    size_t maxlen = s.length();

    size_t ulen = 0;
    while (maxlen != 0)
    {
        auto mbcharlen = mblen(cstrptr, maxlen);
        if (mbcharlen < 1)
        {
            break;
        }
        cstrptr += mbcharlen;
        ulen += 1;
        if (maxlen > (size_t)mbcharlen)
        {
            maxlen -= mbcharlen;
        }
        else
        {
            break;
        }
    }

    return ulen;
}

static std::chrono::time_point<std::chrono::steady_clock> global_timer_started{};

void AsmParser::global_start_timer()
{
    global_timer_started = std::chrono::steady_clock::now();
}

int64_t AsmParser::global_current_running_time()
{
    auto end = std::chrono::steady_clock::now();
    std::chrono::duration<double, std::milli> diff = end - global_timer_started;
    auto rounded_diff = std::chrono::round<std::chrono::milliseconds>(diff);
    return rounded_diff.count();
}
".
(** src/utils/utils.hpp *)
Definition utils_utils_hpp : string := "
#include <cstdint>
#include <string>

namespace AsmParser
{

inline bool is_whitespace(const char c)
{
    return ((c == 32) || (c == '\t'));
}

bool is_hex(char c);
int8_t hex2int(char c);

size_t ustrlen(std::string_view s);

void global_start_timer();
int64_t global_current_running_time();

} // namespace AsmParser
".
(** src/utils/library_detection.cpp *)
Definition utils_library_detection_cpp : string := "#include ""library_detection.hpp""

AsmParser::LibraryDetection::LibraryDetection()
{
}

bool AsmParser::LibraryDetection::file_in_library(std::string_view filepath) const
{
    return filepath.starts_with(""/opt/compiler-explorer/"") || filepath.starts_with(""/usr/include"") ||
           filepath.starts_with(""/usr/local/include"");
}
".
(** src/utils/library_detection.hpp *)
Definition utils_library_detection_hpp : string := "#pragma once

#include <string_view>

namespace AsmParser
{

class LibraryDetection
{
    public:
    LibraryDetection();

    bool file_in_library(std::string_view filepath) const;
};

} // namespace AsmParser
".
(** src/utils/regexwrappers.cpp *)
Definition utils_regexwrappers_cpp : string := "#include ""regexwrappers.hpp""
#include ""regexes.hpp""
#include ""utils.hpp""
#include <algorithm>
#include <charconv>
#include <fmt/core.h>

AsmParser::regexed_sourceref AsmParser::AssemblyTextParserUtils::getSourceRef(const std::string_view line)
{
    if (const auto match = AsmParser::Regexes::sourceTag(line))
    {
        const auto file_index = match.get<1>().to_number();
        const auto line_index = match.get<2>().to_number();

        int column = 0;

        const auto matchWithColumn = AsmParser::Regexes::sourceTagWithColumn(line);
        if (matchWithColumn)
        {
            column = matchWithColumn.get<3>().to_number();
        }

        return { file_index, line_index, column };
    }

    return { 0, 0, 0 };
}

std::optional<AsmParser::asm_file_def> AsmParser::AssemblyTextParserUtils::getFileDef(const std::string_view line)
{
    if (const auto match = Regexes::fileFind(line))
    {
        const auto file_index = match.get<1>().to_number();
        const auto file_name = match.get<2>().to_view();

        const auto file_name_rest = match.get<4>().to_view();
        if (!file_name_rest.empty())
        {
            return asm_file_def{ file_index, fmt::format(""{}/{}"", file_name, file_name_rest) };
        }
        return asm_file_def{ file_index, std::string(file_name) };
    }

    return std::nullopt;
}

std::string AsmParser::AssemblyTextParserUtils::expandTabs(const std::string_view line)
{
    std::string expandedLine;

    const std::string spaces = ""        "";
    expandedLine.reserve(line.length());

    long unsigned int extraChars = 0;
    for (auto c : line)
    {
        if (c == '\t')
        {
            const auto total = expandedLine.length() + extraChars;
            const auto spacesNeeded = (total + 8) & 7;
            extraChars += spacesNeeded;
            expandedLine += spaces.substr(spacesNeeded);
        }
        else
        {
            expandedLine += c;
        }
    }

    return expandedLine;
}

// static inline void rtrim(std::string &s)
// {
//     s.erase(std::find_if(s.rbegin(), s.rend(),
//                          [](unsigned char ch)
//                          {
//                              return !std::isspace(ch);
//                          })
//             .base(),
//             s.end());
// }

static inline void ltrim(std::string &s)
{
    s.erase(s.begin(), std::find_if(s.begin(), s.end(),
                                    [](unsigned char ch)
                                    {
                                        return !std::isspace(ch);
                                    }));
}

std::string_view AsmParser::AssemblyTextParserUtils::getLineWithoutComment(const std::string_view line)
{
    bool spacing = false;
    bool stillStarting = true;
    auto lastit = line.end();

    for (auto it = line.begin(); it != line.end(); it++)
    {
        auto c = *it;
        if (c == ';' || c == '#')
        {
            if (!spacing)
                lastit = it;
            break;
        }
        else if (spacing)
        {
            if (!is_whitespace(c))
            {
                spacing = false;
            }
        }
        else if (is_whitespace(c))
        {
            if (!stillStarting)
            {
                spacing = true;
                lastit = it;
            }
        }
        else
        {
            stillStarting = false;
        }
    }

    return std::string_view{ line.begin(), lastit };
}

std::string_view AsmParser::AssemblyTextParserUtils::getLineWithoutCommentAndStripFirstWord(const std::string_view line)
{
    bool wordstarted = false;
    bool wordended = false;
    bool spacing = false;
    auto lastit = line.end();
    auto afterfirstword = line.begin();

    for (auto it = line.begin(); it != line.end(); it++)
    {
        auto c = *it;

        if (c == ';' || c == '#')
        {
            auto nextit = it + 1;

            if (nextit != line.end())
            {
                auto nextchar = *nextit;

                // it's only a comment if the ; or # is followed by a whitespace
                if (nextchar != ' ' && nextchar != '\t')
                {
                    continue;
                }
            }

            if (!spacing)
                lastit = it;
            break;
        }
        else if (!wordstarted && ((c >= 'a' && c <= 'z') || (c >= 'A' && c <= 'Z')))
        {
            wordstarted = true;
        }
        else if (wordstarted && !wordended && is_whitespace(c))
        {
            wordended = true;
            afterfirstword = it;
        }
        else if (wordended)
        {
            if (spacing)
            {
                if (!is_whitespace(c))
                {
                    lastit = line.end();
                    spacing = false;
                }
            }
            else if (is_whitespace(c))
            {
                spacing = true;
                lastit = it;
            }
        }
    }

    return std::string_view{ afterfirstword, lastit };
}

bool AsmParser::AssemblyTextParserUtils::is_probably_label(const std::string_view line)
{
    const auto filtered = getLineWithoutComment(line);

    return (filtered.ends_with("":""));
}

std::string AsmParser::AssemblyTextParserUtils::fixLabelIndentation(const std::string_view line)
{
    std::string filtered{ line };
    if (is_probably_label(line))
        ltrim(filtered);

    return filtered;
}

std::vector<AsmParser::asm_label_v> AsmParser::AssemblyTextParserUtils::getUsedLabelsInLine(const std::string_view line)
{
    std::vector<AsmParser::asm_label_v> labelsInLine;

    const auto filteredLine = AssemblyTextParserUtils::getLineWithoutCommentAndStripFirstWord(line);

    if (filteredLine.find('\""') != std::string_view::npos)
    {
        return labelsInLine;
    }

    long unsigned int diffLen = line.length() - filteredLine.length() + 1;

    long unsigned int startidx = 0;
    for (auto match : ctre::range<R""re(([$%]?)([.@A-Z_a-z][.\dA-Z_a-z]*))re"">(filteredLine))
    {
        AsmParser::asm_label_v label{};
        label.name = match.get<2>().to_view();

        const auto len = label.name.length();
        const auto loc = filteredLine.find(label.name, startidx);
        startidx += (loc - startidx) + len;

        label.range.start_col = static_cast<uint16_t>(loc + diffLen);
        label.range.end_col = static_cast<uint16_t>(loc + diffLen + ustrlen(label.name));

        labelsInLine.push_back(label);

        auto prefix = match.get<1>().to_view();
        if (!prefix.empty())
        {
            AsmParser::asm_label_v labelWithPrefix = label;
            labelWithPrefix.name = std::string_view(prefix.begin(), label.name.end());
            labelWithPrefix.range.start_col--;

            labelsInLine.push_back(labelWithPrefix);
        }
    }

    return labelsInLine;
}

bool AsmParser::AssemblyTextParserUtils::hasOpcode(const std::string_view line, bool inNvccCode)
{
    // Remove any leading label definition...
    if (const auto match = Regexes::labelDef(line))
    {
        // todo
        // line = line.substr(match[0].length);
    }

    // Strip any comments
    const auto lineWithoutComment = getLineWithoutComment(line);

    // .inst generates an opcode, so also counts
    if (Regexes::instOpcodeRe(lineWithoutComment))
        return true;

    // Detect assignment, that's not an opcode...
    if (Regexes::assignmentDef(lineWithoutComment))
        return false;

    if (inNvccCode)
        return Regexes::hasNvccOpcodeRe(lineWithoutComment);

    return Regexes::hasOpcodeRe(lineWithoutComment);
}

bool AsmParser::AssemblyTextParserUtils::isExampleOrStdin(const std::string_view filename)
{
    if (Regexes::stdInLooking(filename))
        return true;

    return false;
}

std::optional<AsmParser::asm_stabn> AsmParser::AssemblyTextParserUtils::getSourceInfoFromStabs(const std::string_view line)
{
    const auto match = Regexes::sourceStab(line);
    if (!match)
        return std::nullopt;

    const auto type = match.get<1>().to_number();
    if (type == 68)
    {
        const auto line_num = match.get<2>().to_number();

        return asm_stabn{ type, line_num };
    }
    else
    {
        return asm_stabn{ type, 0 };
    }
}

std::optional<AsmParser::asm_source_v> AsmParser::AssemblyTextParserUtils::get6502DbgInfo(const std::string_view line)
{
    if (const auto match = Regexes::source6502Dbg(line))
    {
        const auto file = match.get<1>().to_view();
        const auto iline = match.get<2>().to_number();

        // todo check if stdin?
        return asm_source_v{
            .file = file, .file_idx = 0, .line = iline, .column = 0, .is_end = false, .is_usercode = false, .inside_proc = false
        };
    }

    if (const auto matchend = Regexes::source6502DbgEnd(line))
    {
        return asm_source_v{ .file = {}, .file_idx = 0, .line = 0, .column = 0, .is_end = true, .is_usercode = false, .inside_proc = false };
    }

    return std::nullopt;
}

std::optional<AsmParser::asm_source_l> AsmParser::AssemblyTextParserUtils::getD2LineInfo(const std::string_view line)
{
    if (const auto match = Regexes::sourceD2Tag(line))
    {
        const auto line_num = match.get<1>().to_number();

        return asm_source_l{ .line = line_num };
    }

    return std::nullopt;
}

std::optional<AsmParser::asm_source_f> AsmParser::AssemblyTextParserUtils::getD2FileInfo(const std::string_view line)
{
    if (const auto match = Regexes::sourceD2File(line))
    {
        const auto file = match.get<1>().to_view();

        return asm_source_f{ .file = file };
    }

    return std::nullopt;
}


bool AsmParser::AssemblyTextParserUtils::startCommentBlock(const std::string_view line)
{
    if (Regexes::blockCommentStart(line))
        return true;

    return false;
}

bool AsmParser::AssemblyTextParserUtils::endCommentBlock(const std::string_view line)
{
    if (Regexes::blockCommentStop(line))
        return true;

    return false;
}

bool AsmParser::AssemblyTextParserUtils::startAppBlock(const std::string_view line)
{
    if (Regexes::startAppBlock(line))
        return true;

    return false;
}

bool AsmParser::AssemblyTextParserUtils::endAppBlock(const std::string_view line)
{
    if (Regexes::endAppBlock(line))
        return true;

    return false;
}

bool AsmParser::AssemblyTextParserUtils::startAsmNesting(const std::string_view line)
{
    if (Regexes::startAsmNesting(line))
        return true;

    return false;
}

bool AsmParser::AssemblyTextParserUtils::endAsmNesting(const std::string_view line)
{
    if (Regexes::endAsmNesting(line))
        return true;

    return false;
}

bool AsmParser::AssemblyTextParserUtils::startProcBlock(const std::string_view line)
{
    if (Regexes::startProcBlock(line))
        return true;

    return false;
}

bool AsmParser::AssemblyTextParserUtils::endBlock(const std::string_view line)
{
    if (Regexes::endBlock(line))
        return true;

    return false;
}

bool AsmParser::AssemblyTextParserUtils::endProcBlock(const std::string_view line)
{
    if (Regexes::endProcBlock(line))
        return true;

    return false;
}

std::optional<std::string_view> AsmParser::AssemblyTextParserUtils::getLabel(const std::string_view line)
{
    if (const auto match = Regexes::labelDef(line))
    {
        return match.get<1>().to_view();
    }

    return std::nullopt;
}

std::optional<std::string_view> AsmParser::AssemblyTextParserUtils::getLabelFromObjdumpLabel(std::string_view line)
{
    if (line.starts_with(""<"") && line.ends_with("">:""))
    {
        return std::string_view{ line.begin() + 1, line.end() - 2 };
    }

    return std::nullopt;
}

std::optional<std::string_view> AsmParser::AssemblyTextParserUtils::getLabelAssignment(const std::string_view line)
{
    if (const auto matchAssign = Regexes::labelAssignmentDef(line))
    {
        return matchAssign.get<1>().to_view();
    }

    return std::nullopt;
}

std::optional<std::string_view> AsmParser::AssemblyTextParserUtils::getAssignmentDef(const std::string_view line)
{
    if (const auto match = Regexes::assignmentDef(line))
        return match.get<1>().to_view();

    return std::nullopt;
}

std::optional<std::string_view> AsmParser::AssemblyTextParserUtils::getCudaLabel(const std::string_view line)
{
    if (const auto match = Regexes::cudaBeginDef(line))
        return match.get<1>().to_view();

    return std::nullopt;
}

std::optional<std::string_view> AsmParser::AssemblyTextParserUtils::getFunctionTypeDefinedLabel(const std::string_view line)
{
    if (const auto match = Regexes::definesFunctionOrObject(line))
        return match.get<1>().to_view();

    return std::nullopt;
}

std::optional<std::string_view> AsmParser::AssemblyTextParserUtils::getWeakDefinedLabel(const std::string_view line)
{
    if (const auto match = Regexes::definesWeak(line))
        return match.get<1>().to_view();

    return std::nullopt;
}

std::optional<std::string_view> AsmParser::AssemblyTextParserUtils::getGlobalDefinedLabel(const std::string_view line)
{
    if (const auto match = Regexes::definesGlobal(line))
        return match.get<1>().to_view();

    return std::nullopt;
}

std::optional<std::string_view> AsmParser::AssemblyTextParserUtils::getSectionNameDef(const std::string_view line)
{
    if (const auto match = Regexes::sectionDef(line))
    {
        if (match.get<1>().to_view() == ""section"")
        {
            return match.get<2>().to_view();
        }
        return match.get<1>().to_view();
    }

    return std::nullopt;
}

bool AsmParser::AssemblyTextParserUtils::isJustComments(const std::string_view line)
{
    if (Regexes::commentOnly(line))
        return true;

    return false;
}

bool AsmParser::AssemblyTextParserUtils::isJustNvccComments(const std::string_view line)
{
    if (Regexes::commentOnlyNvcc(line))
        return true;

    return false;
}


bool AsmParser::AssemblyTextParserUtils::isCudaEndDef(const std::string_view line)
{
    if (Regexes::cudaEndDef(line))
        return true;

    return false;
}

bool AsmParser::AssemblyTextParserUtils::isDataDefn(const std::string_view line)
{
    if (Regexes::dataDefn(line))
        return true;

    return false;
}

bool AsmParser::AssemblyTextParserUtils::isDirective(const std::string_view line)
{
    if (Regexes::directive(line))
        return true;

    return false;
}

bool AsmParser::AssemblyTextParserUtils::isInstOpcode(const std::string_view line)
{
    if (Regexes::instOpcodeRe(line))
        return true;

    return false;
}

std::string AsmParser::AssemblyTextParserUtils::squashHorizontalWhitespace(const std::string_view line, bool atStart)
{
    std::string squashed;
    squashed.reserve(line.length());

    enum class HorSpaceState
    {
        Start,
        Second,
        Stop,
        JustOne
    } state;

    if (atStart)
    {
        state = HorSpaceState::Start;
    }
    else
    {
        state = HorSpaceState::JustOne;
    }

    bool justspaces = true;

    for (const auto c : line)
    {
        if (state == HorSpaceState::Stop)
        {
            if (is_whitespace(c))
            {
                // ignore
            }
            else
            {
                state = HorSpaceState::JustOne;
                squashed += c;
                justspaces = false;
            }
        }
        else if (state == HorSpaceState::JustOne)
        {
            if (is_whitespace(c))
            {
                state = HorSpaceState::Stop;
                squashed += ' ';
            }
            else
            {
                squashed += c;
                justspaces = false;
            }
        }
        else if (state == HorSpaceState::Start)
        {
            if (is_whitespace(c))
            {
                state = HorSpaceState::Second;
                squashed += ' ';
            }
            else
            {
                state = HorSpaceState::Stop;
                squashed += c;
                justspaces = false;
            }
        }
        else if (state == HorSpaceState::Second)
        {
            if (is_whitespace(c))
            {
                squashed += ' ';
            }
            else
            {
                squashed += c;
                justspaces = false;
            }
            state = HorSpaceState::Stop;
        }
    }

    if (atStart && justspaces)
    {
        squashed.clear();
    }

    return squashed;
}

std::string AsmParser::AssemblyTextParserUtils::squashHorizontalWhitespaceWithQuotes(const std::string_view line, bool atStart)
{
    if (const auto quotes = Regexes::findQuotes(line))
    {
        return fmt::format(""{}{}{}"", squashHorizontalWhitespaceWithQuotes(quotes.get<1>().to_view(), atStart),
                           quotes.get<2>().to_view(), squashHorizontalWhitespaceWithQuotes(quotes.get<3>().to_view(), false));
    }

    return squashHorizontalWhitespace(line);
}

bool AsmParser::AssemblyTextParserUtils::shouldIgnoreFunction(std::string_view name, const AsmParser::Filter &filter)
{
    if (auto match = Regexes::binaryIgnoreFunction(name))
    {
        return true;
    }
    else if (filter.plt)
    {
        return (name.ends_with(""@plt"") || name.ends_with(""@plt>"")) || (Regexes::pltFunction(name));
    }
    else
    {
        return false;
    }
}
".
(** src/utils/regexwrappers.hpp *)
Definition utils_regexwrappers_hpp : string := "#pragma once

#include ""../types/filter.hpp""
#include ""../types/line.hpp""
#include <optional>
#include <string>
#include <string_view>
#include <vector>

namespace AsmParser
{

struct regexed_sourceref
{
    int file_index;
    int line_index;
    int column;
};

class AssemblyTextParserUtils
{
    public:
    static regexed_sourceref getSourceRef(std::string_view line);
    static std::optional<AsmParser::asm_file_def> getFileDef(std::string_view line);
    static bool is_probably_label(std::string_view line);
    static std::string fixLabelIndentation(std::string_view line);
    static std::string_view getLineWithoutComment(std::string_view line);
    static std::string_view getLineWithoutCommentAndStripFirstWord(std::string_view line);

    static std::string expandTabs(std::string_view line);

    static std::string squashHorizontalWhitespace(std::string_view line, bool atStart = true);
    static std::string squashHorizontalWhitespaceWithQuotes(std::string_view line, bool atStart);

    static std::vector<AsmParser::asm_label_v> getUsedLabelsInLine(std::string_view line);

    static bool hasOpcode(std::string_view line, bool inNvccCode);

    static bool isExampleOrStdin(std::string_view filename);

    static bool isJustComments(std::string_view line);
    static bool isJustNvccComments(std::string_view line);

    static std::optional<AsmParser::asm_stabn> getSourceInfoFromStabs(std::string_view line);
    static std::optional<AsmParser::asm_source_v> get6502DbgInfo(std::string_view line);

    static std::optional<AsmParser::asm_source_f> getD2FileInfo(std::string_view line);
    static std::optional<AsmParser::asm_source_l> getD2LineInfo(std::string_view line);

    static std::optional<std::string_view> getLabel(std::string_view line);
    static std::optional<std::string_view> getAssignmentDef(std::string_view line);
    static std::optional<std::string_view> getLabelAssignment(std::string_view line);
    static std::optional<std::string_view> getCudaLabel(std::string_view line);
    static std::optional<std::string_view> getFunctionTypeDefinedLabel(std::string_view line);
    static std::optional<std::string_view> getWeakDefinedLabel(std::string_view line);
    static std::optional<std::string_view> getGlobalDefinedLabel(std::string_view line);
    static std::optional<std::string_view> getSectionNameDef(std::string_view line);

    static std::optional<std::string_view> getLabelFromObjdumpLabel(std::string_view line);

    static bool startCommentBlock(std::string_view line);
    static bool endCommentBlock(std::string_view line);

    static bool startAppBlock(std::string_view line);
    static bool endAppBlock(std::string_view line);
    static bool startAsmNesting(std::string_view line);
    static bool endAsmNesting(std::string_view line);

    static bool startProcBlock(std::string_view line);
    static bool endBlock(std::string_view line);
    static bool endProcBlock(std::string_view line);

    static bool isCudaEndDef(std::string_view line);
    static bool isDataDefn(std::string_view line);
    static bool isDirective(std::string_view line);
    static bool isInstOpcode(std::string_view line);

    static bool shouldIgnoreFunction(std::string_view name, const AsmParser::Filter &filter);
};

} // namespace AsmParser
".
